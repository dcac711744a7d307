(* Property theorems about SAP files: numeric tags, load safety, load guarantees, save and load. *)
From Coq Require Import String.
From Verif Require Import Base InfoModel InfoSpec NativeModel WriterModel WriteModel SapSpec.
From Verif Require Import SapWitness SapProofs SapWriteProofs SapLoadProofs.

(* ---- C03 ---- *)
Theorem C03_decimal_exact :
  forall module i e min max v,
    0 <= i < e -> e <= len module -> 0 <= min <= max -> max <= 32767 ->
    (parse_dec module i e min max = Ok v <->
     Forall dec_char (slice module i e) /\ v = dec_value (slice module i e) /\ min <= v <= max).
Proof. exact decimal_exact. Qed.
Print Assumptions C03_decimal_exact.

Theorem C03_hexadecimal_exact :
  forall module i e v,
    0 <= i < e -> e <= len module ->
    (parse_hex module i e = Ok v <-> hex_number (slice module i e) v /\ v <= 65535).
Proof. exact parse_hex_spec. Qed.
Print Assumptions C03_hexadecimal_exact.

Theorem C03_no_argument :
  forall module e min max, parse_dec module (-1) e min max = Fail /\ parse_hex module (-1) e = Fail.
Proof. exact no_argument_rejected. Qed.
Print Assumptions C03_no_argument.

Theorem C03_decimal_written :
  forall tag v w, bytes tag -> 0 <= v <= 2147483647 -> wf w -> w_off w + len tag + 12 <= w_end w ->
    exists w' arg,
      write_dec_sap_tag tag v w = Ok (true, w') /\ written w w' = tag ++ arg ++ [13; 10] /\ 0 < len arg
      /\ forall pre post min max, 0 <= min <= v -> v <= max <= 32767 ->
           parse_dec (pre ++ arg ++ post) (len pre) (len pre + len arg) min max = Ok v.
Proof. exact decimal_written. Qed.
Print Assumptions C03_decimal_written.

Theorem C03_hexadecimal_written :
  forall tag v w, bytes tag -> 0 <= v <= 65535 -> wf w -> w_off w + len tag + 6 <= w_end w ->
    exists w' arg,
      write_hex_sap_tag tag v w = Ok (true, w') /\ written w w' = tag ++ arg ++ [13; 10] /\ 0 < len arg
      /\ forall pre post, parse_hex (pre ++ arg ++ post) (len pre) (len pre + len arg) = Ok v.
Proof. exact hexadecimal_written. Qed.
Print Assumptions C03_hexadecimal_written.

Example C03_example :
  parse_dec (str "SONGS 17"%string) 6 8 1 32 = Ok 17 /\ parse_dec (str "SONGS 33"%string) 6 8 1 32 = Fail
  /\ parse_hex (str "INIT d2fE"%string) 5 9 = Ok 54014 /\ parse_hex (str "INIT 10000"%string) 5 10 = Fail.
Proof. vm_compute. auto. Qed.

(* ---- C09 ---- *)
Theorem C09_sap_load_defined :
  forall fuel self name module, named name sap_ext -> bytes module ->
    defined (api_load fuel self (Some name) module).
Proof. exact sap_load_defined. Qed.
Print Assumptions C09_sap_load_defined.

Example C09_example :
  named (str "x.Sap"%string) sap_ext /\ bytes sap_witness
  /\ exists inf, api_load 0 blank_info (Some (str "x.Sap"%string)) sap_witness = Ok inf.
Proof. exact sap_witness_loads. Qed.

(* ---- C10 ---- *)
Theorem C10_sap_load_guarantees :
  forall fuel self name module inf, named name sap_ext -> bytes module ->
    api_load fuel self (Some name) module = Ok inf -> sap_loaded module inf.
Proof. exact sap_load_guarantees. Qed.
Print Assumptions C10_sap_load_guarantees.

Example C10_example :
  match api_load 0 blank_info (Some (str "x.sap"%string)) sap_witness with
  | Ok inf => i_songs inf = 2 /\ i_defsong inf = 1 /\ i_type inf = SAP_B /\ i_init inf = 4096 /\ i_player inf = 4099
              /\ i_music inf = 8192 /\ i_title inf = str "A title"%string /\ at_ (i_durations inf) 1 = 90000
  | _ => False
  end.
Proof. vm_compute. auto 10. Qed.

(* ---- C11 ---- *)
Theorem C11_sap_save_load :
  forall fuel self name module inf inf2 out tag w w',
    named name sap_ext -> bytes module -> api_load fuel self (Some name) module = Ok inf -> edited inf inf2 ->
    i_author inf2 <> unknown_text -> i_title inf2 <> unknown_text -> i_date inf2 <> unknown_text ->
    Forall (fun d => d < 6000000) (firstn (known_songs inf2) (i_durations inf2)) ->
    named out sap_ext -> wf w -> api_write out inf2 module tag w = Ok (true, w') ->
    forall fuel' self' name', named name' sap_ext ->
    exists inf3, api_load fuel' self' (Some name') (written w w') = Ok inf3 /\ sap_same inf2 inf3.
Proof. exact sap_save_load. Qed.
Print Assumptions C11_sap_save_load.

(* a duration of 100 minutes or more makes the saved file unloadable *)
Theorem C11_long_duration_refuted :
  exists inf inf2 w',
    api_load 0 blank_info (Some (str "x.sap"%string)) sap_witness = Ok inf
    /\ api_set_duration inf 0 6000000 = Ok (true, inf2)
    /\ api_write (str "y.sap"%string) inf2 sap_witness false (mkW (repeat 0 300) 0 300) = Ok (true, w')
    /\ forall fuel self, api_load fuel self (Some (str "y.sap"%string)) (written (mkW (repeat 0 300) 0 300) w') = Fail.
Proof. exact long_duration_unloadable. Qed.
Print Assumptions C11_long_duration_refuted.

(* the text "<?>" is lost *)
Theorem C11_unknown_text_refuted :
  exists inf inf2 w' inf3,
    api_load 0 blank_info (Some (str "x.sap"%string)) sap_witness = Ok inf
    /\ api_set_title inf (str "<?>"%string) = (true, inf2)
    /\ api_write (str "y.sap"%string) inf2 sap_witness false (mkW (repeat 0 300) 0 300) = Ok (true, w')
    /\ api_load 0 blank_info (Some (str "y.sap"%string)) (written (mkW (repeat 0 300) 0 300) w') = Ok inf3
    /\ i_title inf3 = [] /\ i_title inf2 = str "<?>"%string.
Proof. exact unknown_text_lost. Qed.
Print Assumptions C11_unknown_text_refuted.

(* the music address of a type B file is lost *)
Theorem C11_music_refuted :
  exists inf w' inf3,
    api_load 0 blank_info (Some (str "x.sap"%string)) sap_witness = Ok inf
    /\ api_write (str "y.sap"%string) inf sap_witness false (mkW (repeat 0 300) 0 300) = Ok (true, w')
    /\ api_load 0 blank_info (Some (str "y.sap"%string)) (written (mkW (repeat 0 300) 0 300) w') = Ok inf3
    /\ i_music inf = 8192 /\ i_music inf3 = -1.
Proof. exact music_lost. Qed.
Print Assumptions C11_music_refuted.

Example C11_example :
  exists inf inf2 w',
    api_load 0 blank_info (Some (str "x.sap"%string)) sap_witness = Ok inf
    /\ api_set_author inf (str "Someone"%string) = (true, inf2)
    /\ api_write (str "y.sap"%string) inf2 sap_witness false (mkW (repeat 0 300) 0 300) = Ok (true, w')
    /\ exists inf3, api_load 0 blank_info (Some (str "z.sap"%string)) (written (mkW (repeat 0 300) 0 300) w') = Ok inf3
       /\ i_author inf3 = str "Someone"%string /\ i_durations inf3 = [59200; 90000] ++ repeat (-1) 30.
Proof. exact author_kept. Qed.

(* ---- C12 ---- *)
Theorem C12_sap_payload_kept :
  forall fuel self name module inf inf2 out tag w,
    named name sap_ext -> bytes module -> api_load fuel self (Some name) module = Ok inf -> edited inf inf2 ->
    named out sap_ext -> wf w ->
    exists hdr,
      Forall (fun c => 0 <= c < 128) hdr /\ (exists r, hdr = [83; 65; 80; 13; 10] ++ r)
      /\ i_headerLen inf2 = i_headerLen inf
      /\ (w_end w < w_off w + len hdr + (len module - i_headerLen inf) -> exists w', api_write out inf2 module tag w = Ok (false, w'))
      /\ (w_off w + len hdr + (len module - i_headerLen inf) <= w_end w ->
          exists w', api_write out inf2 module tag w = Ok (true, w')
            /\ written w w' = hdr ++ slice module (i_headerLen inf) (len module)
            /\ w_off w' = w_off w + len hdr + (len module - i_headerLen inf)).
Proof. exact sap_payload_kept. Qed.
Print Assumptions C12_sap_payload_kept.

Example C12_example :
  exists inf w',
    api_load 0 blank_info (Some (str "x.sap"%string)) sap_witness = Ok inf
    /\ api_write (str "y.sap"%string) inf sap_witness false (mkW (repeat 0 300) 7 300) = Ok (true, w')
    /\ slice (w_out w') (w_off w' - 9) (w_off w') = [255; 255; 0; 16; 2; 16; 96; 234; 96].
Proof. exact payload_example. Qed.
