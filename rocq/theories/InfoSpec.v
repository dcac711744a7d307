(* Specifications used in the statements about ASAPInfo; independent of the parser code. *)
From Verif Require Import Base.

Definition digit (d : Z) : Prop := 0 <= d <= 9.

(* [M]M:SS or [S]S; the value is in seconds *)
Inductive whole_syntax : list Z -> Z -> Prop :=
| WS1 a : digit a -> whole_syntax [48 + a] a
| WS2 a b : digit a -> digit b -> whole_syntax [48 + a; 48 + b] (10 * a + b)
| WM1 a c d : digit a -> 0 <= c <= 5 -> digit d ->
    whole_syntax [48 + a; 58; 48 + c; 48 + d] (60 * a + 10 * c + d)
| WM2 a b c d : digit a -> digit b -> 0 <= c <= 5 -> digit d ->
    whole_syntax [48 + a; 48 + b; 58; 48 + c; 48 + d] (60 * (10 * a + b) + 10 * c + d).

(* optional ".m", ".mm" or ".mmm" in milliseconds; the code ignores everything
   that follows the third digit *)
Inductive frac_syntax : list Z -> Z -> Prop :=
| F0 : frac_syntax [] 0
| F1 a : digit a -> frac_syntax [46; 48 + a] (100 * a)
| F2 a b : digit a -> digit b -> frac_syntax [46; 48 + a; 48 + b] (100 * a + 10 * b)
| F3 a b c ignored : digit a -> digit b -> digit c ->
    frac_syntax ([46; 48 + a; 48 + b; 48 + c] ++ ignored) (100 * a + 10 * b + c).

Definition duration_syntax (s : list Z) (ms : Z) : Prop :=
  exists w ws f fs, s = w ++ f /\ whole_syntax w ws /\ frac_syntax f fs /\ ms = 1000 * ws + fs.

(* ---- texts ---- *)
(* The characters ASAP allows in metadata: ASCII 32..124 without ` and {. *)
Definition meta_char (c : Z) : Prop := 32 <= c <= 124 /\ c <> 96 /\ c <> 123.
Definition meta_text (s : list Z) : Prop := len s <= 127 /\ Forall meta_char s.

(* ---- dates ---- *)
(* YYYY, MM/YYYY or DD/MM/YYYY *)
Inductive date_syntax : list Z -> Z -> option Z -> option Z -> Prop :=
| DY a b c d : digit a -> digit b -> digit c -> digit d ->
    date_syntax [48 + a; 48 + b; 48 + c; 48 + d] (1000 * a + 100 * b + 10 * c + d) None None
| DMY e f a b c d : digit a -> digit b -> digit c -> digit d -> digit e -> digit f ->
    date_syntax [48 + e; 48 + f; 47; 48 + a; 48 + b; 48 + c; 48 + d]
      (1000 * a + 100 * b + 10 * c + d) (Some (10 * e + f)) None
| DDMY g h e f a b c d : digit a -> digit b -> digit c -> digit d -> digit e -> digit f -> digit g -> digit h ->
    date_syntax [48 + g; 48 + h; 47; 48 + e; 48 + f; 47; 48 + a; 48 + b; 48 + c; 48 + d]
      (1000 * a + 100 * b + 10 * c + d) (Some (10 * e + f)) (Some (10 * g + h)).

Definition or_minus_one (o : option Z) : Z := match o with Some v => v | None => -1 end.

(* ---- extensions ---- *)
Definition lower (c : Z) : Z := if (65 <=? c) && (c <=? 90) then c + 32 else c.

Definition supported_exts : list (list Z) :=
  [ [115; 97; 112]   (* sap *)
  ; [99; 109; 99]    (* cmc *)
  ; [99; 109; 51]    (* cm3 *)
  ; [99; 109; 114]   (* cmr *)
  ; [99; 109; 115]   (* cms *)
  ; [100; 109; 99]   (* dmc *)
  ; [100; 108; 116]  (* dlt *)
  ; [109; 112; 116]  (* mpt *)
  ; [109; 112; 100]  (* mpd *)
  ; [114; 109; 116]  (* rmt *)
  ; [116; 109; 99]   (* tmc *)
  ; [116; 109; 56]   (* tm8 *)
  ; [116; 109; 50]   (* tm2 *)
  ; [102; 99]        (* fc *) ].

(* name is STEM.EXT with a non-empty stem and a supported extension in any case *)
Definition supported_name (name : list Z) : Prop :=
  exists stem ext, name = stem ++ [46] ++ ext /\ stem <> [] /\ In (map lower ext) supported_exts.
