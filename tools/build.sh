#!/bin/sh
# Regenerate the project files and build.
cd "$(dirname "$0")/.." && python3 tools/manifest.py && cd rocq && coq_makefile -f _CoqProject -o Makefile && make -j4 "$@"
