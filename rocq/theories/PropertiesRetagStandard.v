(* Property theorems about asapconv changing the TV standard of SAP files *)
From Coq Require Import String.
From Verif Require Import Base InfoModel InfoSpec NativeModel WriterModel WriteModel SapSpec SapWitness OptionModel RetagModel RetagSpec RetagStandardSpec RetagStandardProofs RetagAcceptProofs RetagStandardWitness.

(* ---- C65 ---- *)
(* with --ntsc or --pal, the file is for that standard and the durations are for the same number of frames *)
Theorem C65_standard :
  forall fuel self name module inf o song target output file,
  named name sap_ext -> bytes module -> api_load fuel self (Some name) module = Ok inf -> named target sap_ext -> len output = 65000 ->
  0 <= song < i_songs inf -> 0 <= o_ntsc o -> (forall k, 0 <= k < i_songs inf -> std_duration o song inf k < 6000000) ->
  or_else (o_author o) (i_author inf) <> unknown_text -> or_else (o_name o) (i_title inf) <> unknown_text -> or_else (o_date o) (i_date inf) <> unknown_text ->
  conv_module false o target song inf module output = Ok file ->
  exists hdr, file = hdr ++ slice module (i_headerLen inf) (len module) /\
  forall fuel' self' name', named name' sap_ext -> exists inf3, api_load fuel' self' (Some name') file = Ok inf3 /\ i_headerLen inf3 = len hdr /\
    i_author inf3 = or_else (o_author o) (i_author inf) /\ i_title inf3 = or_else (o_name o) (i_title inf) /\ i_date inf3 = or_else (o_date o) (i_date inf) /\
    (i_type inf = SAP_B /\ i_fastplay inf = frame_lines (i_ntsc inf)) /\
    (i_songs inf3, i_defsong inf3, i_channels inf3, i_ntsc inf3, i_type inf3, i_fastplay inf3, i_init inf3, i_player inf3, i_covox inf3) =
    (i_songs inf, i_defsong inf, i_channels inf, asked_ntsc o, SAP_B, frame_lines (asked_ntsc o), i_init inf, i_player inf, i_covox inf) /\
    forall k, 0 <= k < i_songs inf ->
      ((forall j, 0 <= j <= k -> 0 <= std_duration o song inf j) -> at_ (i_durations inf3) k = std_duration o song inf k) /\
      ((exists j, 0 <= j <= k /\ std_duration o song inf j < 0) -> at_ (i_durations inf3) k = -1).
Proof. exact restandardised. Qed.
Print Assumptions C65_standard.
Example C65_standard_ex : exists inf, api_load 0 blank_info (Some (str "a.sap"%string)) timed_sap = Ok inf /\ std_duration (with_ntsc 1 initial_options) 0 inf 0 = 49925 /\
  conv_module false (with_ntsc 1 initial_options) (str "b.sap"%string) 0 inf timed_sap (repeat 0 (Z.to_nat 65000)) = Ok ntsc_sap.
Proof. exact standard_example. Qed.

(* asking for the standard that a file has already changes its durations *)
Theorem C65_standard_again_refuted :
  exists inf inf', i_ntsc inf = true /\ api_can_set_ntsc inf = true /\ i_songs inf = 1 /\ at_ (i_durations inf) 0 = 60000 /\
  conv_info (with_ntsc 1 initial_options) inf = Ok inf' /\ i_ntsc inf' = true /\ at_ (i_durations inf') 0 = 49925.
Proof. exact standard_again. Qed.
Print Assumptions C65_standard_again_refuted.

(* a SAP file is written exactly if the texts are valid, the standard can be changed if that is asked for, and the file fits *)
Theorem C65_accepts :
  forall fuel self name module inf o xex song target output,
  named name sap_ext -> bytes module -> api_load fuel self (Some name) module = Ok inf -> named target sap_ext -> len output = 65000 ->
  (~ acceptable o inf -> conv_module xex o target song inf module output = Fail) /\
  (acceptable o inf -> exists hdr, Forall (fun c => 0 <= c < 128) hdr /\ (exists r, hdr = [83; 65; 80; 13; 10] ++ r) /\
     (len hdr + (len module - i_headerLen inf) <= 65000 -> conv_module xex o target song inf module output = Ok (hdr ++ slice module (i_headerLen inf) (len module))) /\
     (65000 < len hdr + (len module - i_headerLen inf) -> conv_module xex o target song inf module output = Fail)).
Proof. exact accepted. Qed.
Print Assumptions C65_accepts.
Example C65_accepts_ex : exists inf, api_load 0 blank_info (Some (str "a.sap"%string)) timed_sap = Ok inf /\ acceptable (with_ntsc 1 initial_options) inf /\
  ~ acceptable (with_name (Some [10]) initial_options) inf /\ conv_module false (with_name (Some [10]) initial_options) (str "b.sap"%string) 0 inf timed_sap [] = Fail.
Proof. exact accept_example. Qed.
