(* Property theorems about asapconv writing SAP files from SAP files *)
From Coq Require Import String.
From Verif Require Import Base InfoModel InfoSpec NativeModel WriterModel WriteModel SapSpec SapWitness OptionModel RetagModel RetagSpec RetagProofs RetagWitness.

(* ---- C65 ---- *)
(* the file has the binary part of the input file, the texts that were asked for, and the durations up to the first unknown one *)
Theorem C65_retag :
  forall fuel self name module inf o song target output file,
  named name sap_ext -> bytes module -> api_load fuel self (Some name) module = Ok inf -> named target sap_ext -> len output = 65000 ->
  0 <= song < i_songs inf -> o_ntsc o < 0 -> o_duration o < 6000000 ->
  or_else (o_author o) (i_author inf) <> unknown_text -> or_else (o_name o) (i_title inf) <> unknown_text -> or_else (o_date o) (i_date inf) <> unknown_text ->
  conv_module false o target song inf module output = Ok file ->
  exists hdr, file = hdr ++ slice module (i_headerLen inf) (len module) /\
  forall fuel' self' name', named name' sap_ext -> exists inf3, api_load fuel' self' (Some name') file = Ok inf3 /\ i_headerLen inf3 = len hdr /\
    i_author inf3 = or_else (o_author o) (i_author inf) /\ i_title inf3 = or_else (o_name o) (i_title inf) /\ i_date inf3 = or_else (o_date o) (i_date inf) /\
    (i_songs inf3, i_defsong inf3, i_channels inf3, i_ntsc inf3, i_type inf3, i_fastplay inf3, i_init inf3, i_player inf3, i_covox inf3) =
    (i_songs inf, i_defsong inf, i_channels inf, i_ntsc inf, i_type inf, i_fastplay inf, i_init inf, i_player inf, i_covox inf) /\
    (i_type inf = SAP_C -> i_music inf3 = if (0 <=? o_address o) && (o_address o <? 65535) then o_address o else i_music inf) /\
    forall k, 0 <= k < i_songs inf ->
      ((forall j, 0 <= j <= k -> 0 <= new_duration o song inf j) -> at_ (i_durations inf3) k = new_duration o song inf k) /\
      ((exists j, 0 <= j <= k /\ new_duration o song inf j < 0) -> at_ (i_durations inf3) k = -1).
Proof. exact retagged. Qed.
Print Assumptions C65_retag.
Example C65_retag_ex : exists inf, api_load 0 blank_info (Some (str "a.sap"%string)) untimed_sap = Ok inf /\
  conv_module false retag_options (str "b.sap"%string) 1 inf untimed_sap (repeat 0 (Z.to_nat 65000)) = Ok retagged_sap.
Proof. exact retag_example. Qed.

(* whatever the options, converting a loaded SAP file has no undefined behaviour *)
Theorem C65_defined :
  forall fuel self name module inf o xex song target output,
  named name sap_ext -> bytes module -> api_load fuel self (Some name) module = Ok inf -> named target sap_ext -> len output = 65000 ->
  defined (conv_module xex o target song inf module output).
Proof. exact conv_defined. Qed.
Print Assumptions C65_defined.

(* a duration that was asked for can be lost *)
Theorem C65_duration_refuted :
  exists inf inf3, api_load 0 blank_info (Some (str "a.sap"%string)) untimed_sap = Ok inf /\ o_duration retag_options = 5000 /\ i_songs inf = 2 /\
  conv_module false retag_options (str "b.sap"%string) 1 inf untimed_sap (repeat 0 (Z.to_nat 65000)) = Ok retagged_sap /\
  api_load 0 blank_info (Some (str "b.sap"%string)) retagged_sap = Ok inf3 /\ at_ (i_durations inf3) 1 = -1.
Proof. exact duration_lost. Qed.
Print Assumptions C65_duration_refuted.

(* a music address that was asked for can be ignored *)
Theorem C65_address_refuted :
  exists o inf inf', o_address o = 65535 /\ i_type inf = SAP_C /\ i_music inf = 8192 /\ conv_info o inf = Ok inf' /\ i_music inf' = 8192.
Proof. exact address_ignored. Qed.
Print Assumptions C65_address_refuted.
