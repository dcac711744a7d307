(* Witnesses for the statements about the output window and the offered formats. *)
From Coq Require Import String.
From Verif Require Import Base InfoModel NativeModel WriterModel FlashPackModel WriteModel SapSpec SapWitness NativeWitness WindowSpec XexSpec.

Definition loaded_as (name : string) (file : list Z) : outcome info := api_load 3000 blank_info (Some (str name)) file.

Definition line (s : string) : list Z := str s ++ [13; 10].

(* a TYPE C file whose only block is shorter than its player needs *)
Definition short_cmc : list Z :=
  line "SAP" ++ line "TYPE C" ++ line "MUSIC 2000" ++ line "PLAYER 0500" ++ [255; 255; 0; 32; 1; 32] ++ repeat 0 1100.

(* a file that looks like a saved RMT until its block ends before it starts *)
Definition backwards_rmt : list Z :=
  line "SAP" ++ line "TYPE B" ++ line "INIT 1000" ++ line "PLAYER 3403" ++ [255; 255; 232; 3; 0; 0; 96].

(* a window that does not start at the beginning of its array *)
Definition low_bytes : wstate := mkW ([0; 32; 0; 32; 99] ++ repeat 7 600) 5 600.

Ltac wit := repeat (split; [vm_compute; first [reflexivity | discriminate]|]); vm_compute; first [reflexivity | discriminate].

Lemma cmc_saves : exists inf w',
  loaded_as "x.cmc" cmc_file = Ok inf
  /\ api_get_save_exts inf cmc_file = Ok [[99; 109; 99]; sap_ext; xex_ext]
  /\ api_write (str "y.CMC") inf cmc_file false (mkW (repeat 7 800) 0 790) = Ok (true, w')
  /\ w_off w' = 774 /\ at_ (w_out w') 0 = 255 /\ at_ (w_out w') 774 = 7.
Proof. do 2 eexists. wit. Qed.

Lemma cmc_no_room : exists inf w',
  loaded_as "x.cmc" cmc_file = Ok inf
  /\ api_write (str "y.sap") inf cmc_file false (mkW (repeat 7 100) 10 90) = Ok (false, w')
  /\ w_out w' <> repeat 7 100 /\ at_ (w_out w') 9 = 7 /\ at_ (w_out w') 90 = 7.
Proof. do 2 eexists. wit. Qed.

Lemma cmc_unlisted : exists inf,
  loaded_as "x.cmc" cmc_file = Ok inf /\ refused (api_write (str "y.rmt") inf cmc_file false (mkW (repeat 7 800) 0 790)) (mkW (repeat 7 800) 0 790).
Proof. eexists. wit. Qed.

Lemma short_cmc_ub : exists inf,
  loaded_as "x.sap" short_cmc = Ok inf
  /\ api_get_save_exts inf short_cmc = Ok [sap_ext; [99; 109; 99]; xex_ext]
  /\ api_write (str "y.cmc") inf short_cmc false (mkW (repeat 7 5000) 0 5000) = UB UbNegSize.
Proof. eexists. wit. Qed.

Lemma backwards_rmt_ub : exists inf,
  loaded_as "x.sap" backwards_rmt = Ok inf /\ api_get_save_exts inf backwards_rmt = UB UbRead.
Proof. eexists. wit. Qed.

Lemma xex_below_start : exists inf w',
  loaded_as "x.sap" sap_witness = Ok inf
  /\ api_write (str "y.xex") inf sap_witness false low_bytes = Ok (true, w')
  /\ at_ (w_out w') 0 = 255 /\ at_ (w_out w') 4 <> 99.
Proof. do 2 eexists. wit. Qed.

(* a valid author that does not fit the author buffer *)
Lemma wide_authors_ub : exists inf inf',
  loaded_as "x.sap" sap_witness = Ok inf /\ api_set_author inf wide_authors = (true, inf')
  /\ api_write (str "y.xex") inf' sap_witness true (mkW (repeat 7 2000) 0 2000) = UB UbWrite.
Proof. do 2 eexists. wit. Qed.

Lemma long_duration_ub : exists inf inf',
  loaded_as "x.sap" sap_witness = Ok inf /\ api_set_duration inf 1 2147482649 = Ok (true, inf')
  /\ api_write (str "y.xex") inf' sap_witness true (mkW (repeat 7 2000) 0 2000) = UB UbOverflow.
Proof. do 2 eexists. wit. Qed.

Definition with_texts (author title date : string) : info :=
  mkInfo [] (str author) (str title) (str date) 2 1 0 (repeat 61001 32) (repeat false 32) false SAP_B 0 0 0 0 0 0 (repeat 0 32).

Lemma small_screen :
  xex_title (with_texts "A B" "The quick brown fox jumps over the lazy dog" "1984") = Ok (str "The quick brown fox jumps over  the lazy dog                    ")
  /\ xex_author (with_texts "Ann Other & Bob & Charles The Third" "T" "1984") = Ok (str "by Ann Other & Bob               & Charles The Third            ")
  /\ xex_other (with_texts "A B" "T" "1984") = Ok (str "1984                STEREO 01:02").
Proof. wit. Qed.
