(* What the extensions stand for *)
From Coq Require Import String.
From Verif Require Import Base InfoModel.

Definition descriptions : list (list Z * list Z) := map (fun p => (str (fst p), str (snd p)))
  [("sap", "Slight Atari Player"); ("cmc", "Chaos Music Composer"); ("cm3", "CMC ""3/4"""); ("cmr", "CMC ""Rzog""");
   ("cms", "Stereo Double CMC"); ("dmc", "CMC DoublePlay"); ("dlt", "Delta Music Composer"); ("mpt", "Music ProTracker");
   ("mpd", "MPT DoublePlay"); ("rmt", "Raster Music Tracker"); ("tmc", "Theta Music Composer 1.x"); ("tm8", "Theta Music Composer 1.x");
   ("tm2", "Theta Music Composer 2.x"); ("fc", "Future Composer"); ("xex", "Atari 8-bit executable")]%string.
Definition described (ext : list Z) : option (list Z) := option_map snd (find (fun p => eqb_list ext (fst p)) descriptions).
