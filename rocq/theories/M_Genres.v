(** * Model: the Winamp genre tables, scribbu/winamp-genres.cc.

    The two tables are transcribed from the source by a script. *)
From Verif Require Import Base.

(** scribbu/winamp-genres.cc:32-225, [GENRESW], as code points (all are ASCII). *)
Definition genresw : list (list N) :=
  [B "blues"; B "classic rock"; B "country"; B "dance"; B "disco"; B "funk"; B "grunge";
   B "hip-hop"; B "jazz"; B "metal"; B "new age"; B "oldies"; B "other"; B "pop"; B "r&b";
   B "rap"; B "reggae"; B "rock"; B "techno"; B "industrial"; B "alternative"; B "ska";
   B "death metal"; B "pranks"; B "soundtrack"; B "euro-techno"; B "ambient"; B "trip-hop";
   B "vocal"; B "jazz+funk"; B "fusion"; B "trance"; B "classical"; B "instrumental"; B "acid";
   B "house"; B "game"; B "sound clip"; B "gospel"; B "noise"; B "alternrock"; B "bass";
   B "soul"; B "punk"; B "space"; B "meditative"; B "instrumental pop"; B "instrumental rock";
   B "ethnic"; B "gothic"; B "darkwave"; B "techno-industrial"; B "electronic"; B "pop-folk";
   B "eurodance"; B "dream"; B "southern rock"; B "comedy"; B "cult"; B "gangsta"; B "top 40";
   B "christian rap"; B "pop/funk"; B "jungle"; B "native american"; B "cabaret"; B "new wave";
   B "psychadelic"; B "rave"; B "showtunes"; B "trailer"; B "lo-fi"; B "tribal"; B "acid punk";
   B "acid jazz"; B "polka"; B "retro"; B "musical"; B "rock & roll"; B "hard rock"; B "folk";
   B "folk-rock"; B "national folk"; B "swing"; B "fast fusion"; B "bebob"; B "latin";
   B "revival"; B "celtic"; B "bluegrass"; B "avantgarde"; B "gothic rock";
   B "progressive rock"; B "psychedelic rock"; B "symphonic rock"; B "slow rock"; B "big band";
   B "chorus"; B "easy listening"; B "acoustic"; B "humour"; B "speech"; B "chanson";
   B "opera"; B "chamber musice"; B "sonata"; B "symphony"; B "booty brass"; B "primus";
   B "porn groove"; B "satire"; B "slow jam"; B "club"; B "tango"; B "samba"; B "folklore";
   B "ballad"; B "power ballad"; B "rhytmic soul"; B "freestyle"; B "duet"; B "punk rock";
   B "drum solo"; B "a capela"; B "euro-house"; B "dance hall"; B "goa"; B "drum & bass";
   B "club-house"; B "hardcore techno"; B "terror"; B "indie"; B "britpop"; B "negerpunk";
   B "polsk punk"; B "beat"; B "christian gangsta rap"; B "heavy metal"; B "black metal";
   B "crossover"; B "contemporary christian"; B "christian rock"; B "merengue"; B "salsa";
   B "thrash metal"; B "anime"; B "jpop"; B "synthpop"; B "abstract"; B "art rock";
   B "baroque"; B "bhangra"; B "big beat"; B "breakbeat"; B "chillout"; B "downtempo"; B "dub";
   B "ebm"; B "eclectic"; B "electro"; B "electroclash"; B "emo"; B "experimental"; B "garage";
   B "global"; B "idm"; B "illbient"; B "industro-goth"; B "jam band"; B "krautrock";
   B "leftfield"; B "lounge"; B "math rock"; B "new romantic"; B "nu-breakz"; B "post-punk";
   B "post-rock"; B "psytrance"; B "shoegaze"; B "space rock"; B "trop rock"; B "world music";
   B "neoclassical"; B "audiobook"; B "audio theatre"; B "neue deutsche welle"; B "podcast";
   B "indie-rock"; B "g-funk"; B "dubstep"; B "garage rock"; B "psybient"].

(** scribbu/winamp-genres.cc:317-511, [scribbu::detail::GENRES]. *)
Definition genres : list bytes :=
  [B "Blues"; B "Classic Rock"; B "Country"; B "Dance"; B "Disco"; B "Funk"; B "Grunge";
   B "Hip-Hop"; B "Jazz"; B "Metal"; B "New Age"; B "Oldies"; B "Other"; B "Pop"; B "R&B";
   B "Rap"; B "Reggae"; B "Rock"; B "Techno"; B "Industrial"; B "Alternative"; B "Ska";
   B "Death Metal"; B "Pranks"; B "Soundtrack"; B "Euro-Techno"; B "Ambient"; B "Trip-Hop";
   B "Vocal"; B "Jazz+Funk"; B "Fusion"; B "Trance"; B "Classical"; B "Instrumental"; B "Acid";
   B "House"; B "Game"; B "Sound Clip"; B "Gospel"; B "Noise"; B "AlternRock"; B "Bass";
   B "Soul"; B "Punk"; B "Space"; B "Meditative"; B "Instrumental Pop"; B "Instrumental Rock";
   B "Ethnic"; B "Gothic"; B "Darkwave"; B "Techno-Industrial"; B "Electronic"; B "Pop-Folk";
   B "Eurodance"; B "Dream"; B "Southern Rock"; B "Comedy"; B "Cult"; B "Gangsta"; B "Top 40";
   B "Christian Rap"; B "Pop/Funk"; B "Jungle"; B "Native American"; B "Cabaret"; B "New Wave";
   B "Psychadelic"; B "Rave"; B "Showtunes"; B "Trailer"; B "Lo-Fi"; B "Tribal"; B "Acid Punk";
   B "Acid Jazz"; B "Polka"; B "Retro"; B "Musical"; B "Rock & Roll"; B "Hard Rock"; B "Folk";
   B "Folk-Rock"; B "National Folk"; B "Swing"; B "Fast Fusion"; B "Bebob"; B "Latin";
   B "Revival"; B "Celtic"; B "Bluegrass"; B "Avantgarde"; B "Gothic Rock";
   B "Progressive Rock"; B "Psychedelic Rock"; B "Symphonic Rock"; B "Slow Rock"; B "Big Band";
   B "Chorus"; B "Easy Listening"; B "Acoustic"; B "Humour"; B "Speech"; B "Chanson";
   B "Opera"; B "Chamber Musice"; B "Sonata"; B "Symphony"; B "Booty Brass"; B "Primus";
   B "Porn Groove"; B "Satire"; B "Slow Jam"; B "Club"; B "Tango"; B "Samba"; B "Folklore";
   B "Ballad"; B "Power Ballad"; B "Rhytmic Soul"; B "Freestyle"; B "Duet"; B "Punk Rock";
   B "Drum Solo"; B "A Capela"; B "Euro-House"; B "Dance Hall"; B "Goa"; B "Drum & Bass";
   B "Club-House"; B "Hardcore Techno"; B "Terror"; B "Indie"; B "BritPop"; B "Negerpunk";
   B "Polsk Punk"; B "Beat"; B "Christian Gangsta Rap"; B "Heavy Metal"; B "Black Metal";
   B "Crossover"; B "Contemporary Christian"; B "Christian rock"; B "Merengue"; B "Salsa";
   B "Thrash Metal"; B "Anime"; B "Jpop"; B "Synthpop"; B "Abstract"; B "Art Rock";
   B "Baroque"; B "Bhangra"; B "Big beat"; B "Breakbeat"; B "Chillout"; B "Downtempo"; B "Dub";
   B "EBM"; B "Eclectic"; B "Electro"; B "Electroclash"; B "Emo"; B "Experimental"; B "Garage";
   B "Global"; B "IDM"; B "Illbient"; B "Industro-Goth"; B "Jam Band"; B "Krautrock";
   B "Leftfield"; B "Lounge"; B "Math Rock"; B "New Romantic"; B "Nu-Breakz"; B "Post-Punk";
   B "Post-Rock"; B "Psytrance"; B "Shoegaze"; B "Space Rock"; B "Trop Rock"; B "World Music";
   B "Neoclassical"; B "Audiobook"; B "Audio theatre"; B "Neue Deutsche Welle"; B "Podcast";
   B "Indie-Rock"; B "G-Funk"; B "Dubstep"; B "Garage Rock"; B "Psybient"].

(** scribbu/winamp-genres.cc:513-523, [text_for_genre]. *)
Definition text_for_genre (g : N) : option bytes :=
  if len genres <=? g then None else nth_error genres (N.to_nat g).
