(* Specifications used in the statements about the title screen of an executable. *)
From Verif Require Import Base InfoModel InfoSpec WriterModel.

(* whole 32-column lines that fit a 256-byte buffer *)
Definition whole_lines (d : list Z) : Prop := len d mod 32 = 0 /\ len d <= 256.

(* the characters of a text other than spaces *)
Definition visible (l : list Z) : list Z := filter (fun c => negb (c =? 32)) l.

(* text t is shown on the 32-column lines d, its character i at pos i:
   in order, nothing else shown, words of at most 32 characters kept together on one line,
   and different words on a line kept apart *)
Record laid_out (t d : list Z) (pos : Z -> Z) : Prop := {
  lo_shown : forall i, 0 <= i < len t -> at_ t i <> 32 -> 0 <= pos i < len d /\ at_ d (pos i) = at_ t i;
  lo_order : forall i j, 0 <= i < j -> j < len t -> at_ t i <> 32 -> at_ t j <> 32 -> pos i < pos j;
  lo_rest : forall p, 0 <= p < len d -> at_ d p <> 32 -> exists i, 0 <= i < len t /\ at_ t i <> 32 /\ pos i = p;
  lo_words : forall a b, 0 <= a < b -> b <= len t -> b - a <= 32 ->
     a = 0 \/ at_ t (a - 1) = 32 -> b = len t \/ at_ t b = 32 -> (forall i, a <= i < b -> at_ t i <> 32) ->
     pos (b - 1) = pos a + (b - 1 - a) /\ pos a / 32 = pos (b - 1) / 32;
  lo_gap : forall i j, 0 <= i < j -> j < len t -> at_ t i <> 32 -> at_ t j <> 32 -> at_ t (j - 1) = 32 ->
     pos i + 1 < pos j \/ pos j mod 32 = 0
}.

(* the text contains a space followed by an ampersand *)
Definition several_authors (t : list Z) : Prop := exists a b, t = a ++ [32; 38] ++ b.

(* the text shown for an empty title *)
Definition untitled : list Z := [40; 117; 110; 116; 105; 116; 108; 101; 100; 41]. (* (untitled) *)
Definition shown_title (inf : info) : list Z := match i_title inf with [] => untitled | t => t end.

(* minutes and seconds, for less than 100 minutes *)
Definition clock (seconds : Z) : list Z :=
  [48 + seconds / 600; 48 + seconds / 60 mod 10; 58; 48 + seconds mod 60 / 10; 48 + seconds mod 10].
(* the time shown for a duration in milliseconds: rounded up to a second *)
Definition shown_time (duration : Z) : list Z :=
  if (0 <? duration) && (duration + 999 <? 6000000) then clock ((duration + 999) / 1000) else repeat 32 5.
Definition shown_channels (channels : Z) : list Z :=
  if 1 <? channels then [32; 83; 84; 69; 82; 69; 79; 32] else [32; 32; 32; 77; 79; 78; 79; 32].

(* thirty characters without a space *)
Definition name30 : list Z := repeat 65 30.
(* 105 characters that the author setter accepts *)
Definition wide_authors : list Z :=
  let line := [32; 38; 32] ++ name30 in line ++ [32; 38; 120] ++ line ++ [32; 38; 120] ++ line.
