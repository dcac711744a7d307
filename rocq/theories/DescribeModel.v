(* ASAPInfo_GetExtDescription *)
From Coq Require Import String.
From Verif Require Import Base InfoModel.

(* asap.c:4377-4412 ASAPInfo_GetExtDescription; None is NULL *)
Definition api_ext_description (ext : list Z) : option (list Z) :=
  let p := pack_ext ext in
  if p =? 7364979 then Some (str "Slight Atari Player")
  else if p =? 6516067 then Some (str "Chaos Music Composer")
  else if p =? 3370339 then Some (str "CMC ""3/4""")
  else if p =? 7499107 then Some (str "CMC ""Rzog""")
  else if p =? 7564643 then Some (str "Stereo Double CMC")
  else if p =? 6516068 then Some (str "CMC DoublePlay")
  else if p =? 7629924 then Some (str "Delta Music Composer")
  else if p =? 7630957 then Some (str "Music ProTracker")
  else if p =? 6582381 then Some (str "MPT DoublePlay")
  else if p =? 7630194 then Some (str "Raster Music Tracker")
  else if (p =? 6516084) || (p =? 3698036) then Some (str "Theta Music Composer 1.x")
  else if p =? 3304820 then Some (str "Theta Music Composer 2.x")
  else if p =? 2122598 then Some (str "Future Composer")
  else if p =? 7890296 then Some (str "Atari 8-bit executable")
  else None.
