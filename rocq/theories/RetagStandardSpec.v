(* What a SAP file that asapconv converts to another TV standard should say *)
From Verif Require Import Base InfoModel InfoSpec OptionModel.

(* --ntsc or --pal *)
Definition asked_ntsc (o : options) : bool := negb (o_ntsc o =? 0).
(* the scanlines of a frame *)
Definition frame_lines (ntsc : bool) : Z := if ntsc then 262 else 312.
(* the same number of frames takes 5956963 / 7159090 of the time on NTSC *)
Definition in_standard (ntsc : bool) (d : Z) : Z :=
  if 0 <? d then if ntsc then d * 5956963 / 7159090 else d * 7159090 / 5956963 else d.
(* the duration that song k should have *)
Definition std_duration (o : options) (song : Z) (inf : info) (k : Z) : Z :=
  if (k =? song) && (0 <=? o_duration o) then o_duration o else in_standard (asked_ntsc o) (at_ (i_durations inf) k).

(* the texts can be in SAP files, and the standard can be changed if that is asked for *)
Definition acceptable (o : options) (inf : info) : Prop :=
  (forall t, o_author o = Some t -> meta_text t) /\ (forall t, o_name o = Some t -> meta_text t) /\ (forall t, o_date o = Some t -> meta_text t) /\
  (0 <= o_ntsc o -> i_type inf = SAP_B /\ i_fastplay inf = frame_lines (i_ntsc inf)).
