(* Specifications used in the statements about SAP headers and saving. *)
From Verif Require Import Base InfoModel InfoSpec WriterModel.

(* decimal digits and their value *)
Definition dec_char (c : Z) : Prop := 48 <= c <= 57.
Definition dec_value (s : list Z) : Z := fold_left (fun v c => 10 * v + (c - 48)) s 0.

(* hexadecimal digits of either case and their value *)
Inductive hex_char : Z -> Z -> Prop :=
| HexDigit c : 48 <= c <= 57 -> hex_char c (c - 48)
| HexUpper c : 65 <= c <= 70 -> hex_char c (c - 55)
| HexLower c : 97 <= c <= 102 -> hex_char c (c - 87).

Inductive hex_number : list Z -> Z -> Prop :=
| HexNil : hex_number [] 0
| HexSnoc s v c d : hex_number s v -> hex_char c d -> hex_number (s ++ [c]) (16 * v + d).

(* a character that may occur inside a quoted SAP text *)
Definition sap_char (c : Z) : Prop := 1 <= c <= 124 /\ c <> 10 /\ c <> 96 /\ c <> 123.

(* the first song (counting from k, n songs left) without a duration *)
Fixpoint known_prefix (n : nat) (l : list Z) : nat :=
  match n, l with
  | S n, d :: r => if 0 <=? d then S (known_prefix n r) else O
  | _, _ => O
  end.

(* number of songs before the first one without a duration *)
Definition known_songs (inf : info) : nat := known_prefix (Z.to_nat (i_songs inf)) (i_durations inf).

(* the first n elements of a 32-element array, the rest set to the default *)
Definition first_of_32 {A} (n : nat) (default : A) (l : list A) : list A :=
  firstn n l ++ repeat default (32 - n).

(* a 16-bit address, or -1 for "not given" *)
Definition addr_or_none (v : Z) : Prop := -1 <= v <= 65535.

(* what a successful load of a SAP file guarantees *)
Record sap_loaded (module : list Z) (inf : info) : Prop := {
  sl_songs : 1 <= i_songs inf <= 32;
  sl_defsong : 0 <= i_defsong inf < i_songs inf;
  sl_fastplay : 1 <= i_fastplay inf <= 32767;
  sl_channels : 1 <= i_channels inf <= 2;
  sl_covox : i_covox inf = -1 \/ (i_covox inf = 54784 /\ i_channels inf = 2);
  sl_addrs : addr_or_none (i_music inf) /\ addr_or_none (i_init inf) /\ addr_or_none (i_player inf);
  sl_type : match i_type inf with
            | SAP_B => 0 <= i_init inf /\ 0 <= i_player inf
            | SAP_C => 0 <= i_music inf /\ 0 <= i_player inf
            | SAP_D | SAP_S => 0 <= i_init inf
            | _ => False
            end;
  sl_durations : len (i_durations inf) = 32 /\ Forall (fun d => -1 <= d <= 5999999) (i_durations inf);
  sl_loops : len (i_loops inf) = 32;
  sl_author : Forall sap_char (i_author inf);
  sl_title : Forall sap_char (i_title inf);
  sl_date : Forall sap_char (i_date inf);
  sl_header : 5 <= i_headerLen inf /\ i_headerLen inf + 6 < len module
     /\ at_ module (i_headerLen inf) = 255 /\ at_ module (i_headerLen inf + 1) = 255
}.

(* the text that stands for "unknown" in a SAP header; such a tag loads as an empty text *)
Definition unknown_text : list Z := [60; 63; 62]. (* <?> *)

(* metadata that a SAP header can carry *)
Record sap_savable (module : list Z) (inf : info) : Prop := {
  sv_songs : 1 <= i_songs inf <= 32;
  sv_defsong : 0 <= i_defsong inf < i_songs inf;
  sv_fastplay : 1 <= i_fastplay inf <= 32767;
  sv_channels : 1 <= i_channels inf <= 2;
  sv_covox : i_covox inf = -1 \/ (i_covox inf = 54784 /\ i_channels inf = 2);
  sv_addrs : addr_or_none (i_music inf) /\ addr_or_none (i_init inf) /\ addr_or_none (i_player inf);
  sv_type : match i_type inf with
            | SAP_B => 0 <= i_init inf /\ 0 <= i_player inf
            | SAP_C => 0 <= i_music inf /\ 0 <= i_player inf
            | SAP_D | SAP_S => 0 <= i_init inf
            | _ => False
            end;
  sv_durations : len (i_durations inf) = 32
     /\ Forall (fun d => d < 6000000) (firstn (known_songs inf) (i_durations inf));
  sv_loops : len (i_loops inf) = 32;
  sv_author : Forall sap_char (i_author inf) /\ i_author inf <> unknown_text;
  sv_title : Forall sap_char (i_title inf) /\ i_title inf <> unknown_text;
  sv_date : Forall sap_char (i_date inf) /\ i_date inf <> unknown_text;
  sv_header : 5 <= i_headerLen inf /\ i_headerLen inf + 6 < len module
     /\ at_ module (i_headerLen inf) = 255 /\ at_ module (i_headerLen inf + 1) = 255
}.

(* what survives saving as SAP and loading back *)
Record sap_same (inf inf' : info) : Prop := {
  ss_author : i_author inf' = i_author inf;
  ss_title : i_title inf' = i_title inf;
  ss_date : i_date inf' = i_date inf;
  ss_songs : i_songs inf' = i_songs inf;
  ss_defsong : i_defsong inf' = i_defsong inf;
  ss_channels : i_channels inf' = i_channels inf;
  ss_ntsc : i_ntsc inf' = i_ntsc inf;
  ss_module_type : i_type inf' = i_type inf;
  ss_fastplay : i_fastplay inf' = i_fastplay inf;
  ss_init : i_init inf' = i_init inf;
  ss_player : i_player inf' = i_player inf;
  ss_covox : i_covox inf' = i_covox inf;
  ss_music : i_type inf = SAP_C -> i_music inf' = i_music inf;
  ss_durations : i_durations inf' = first_of_32 (known_songs inf) (-1) (i_durations inf);
  ss_loops : i_loops inf' = first_of_32 (known_songs inf) false (i_loops inf)
}.

(* metadata edited through the setters of ASAPInfo *)
Inductive edited : info -> info -> Prop :=
| EdNone i : edited i i
| EdAuthor i j v b k : edited i j -> api_set_author j v = (b, k) -> edited i k
| EdTitle i j v b k : edited i j -> api_set_title j v = (b, k) -> edited i k
| EdDate i j v b k : edited i j -> api_set_date j v = (b, k) -> edited i k
| EdDefaultSong i j song b k : edited i j -> api_set_default_song j song = (b, k) -> edited i k
| EdDuration i j song d b k : edited i j -> api_set_duration j song d = Ok (b, k) -> edited i k
| EdLoop i j song l b k : edited i j -> api_set_loop j song l = Ok (b, k) -> edited i k
| EdNtsc i j ntsc k : edited i j -> api_set_ntsc j ntsc = Ok k -> edited i k
| EdMusic i j v b k : edited i j -> api_set_music_address j v = (b, k) -> edited i k.

(* a C file name: STEM.EXT with a non-empty stem and the given extension in any case *)
Definition named (name ext : list Z) : Prop :=
  exists stem e, name = stem ++ [46] ++ e /\ stem <> [] /\ map lower e = ext.

Definition sap_ext : list Z := [115; 97; 112].

(* an array of the caller and a window of it to write to *)
Definition wf (w : wstate) : Prop := 0 <= w_off w <= w_end w /\ w_end w <= len (w_out w).
(* the bytes written between two positions *)
Definition written (w w' : wstate) : list Z := slice (w_out w') (w_off w) (w_off w').
