(* Property theorems about loading native modules: memory safety, termination, guarantees, durations. *)
From Coq Require Import String.
From Verif Require Import Base InfoModel InfoSpec NativeModel NativeSpec SapSpec.
From Verif Require Import SapWitness NativeWitness NativeProofs NativeLoadProofs NativeDiverge.

(* ---- C13 ---- *)
Theorem C13_cmc_reads_inside :
  forall fuel self name ext module, In ext cmc_exts -> named name ext -> bytes module -> len (i_songPos self) = 32 ->
    in_bounds (api_load fuel self (Some name) module).
Proof. exact cmc_in_bounds. Qed.
Print Assumptions C13_cmc_reads_inside.

Theorem C13_cms_reads_inside :
  forall fuel self name module, named name cms_ext -> bytes module -> len (i_songPos self) = 32 -> 1028 <= len module ->
    in_bounds (api_load fuel self (Some name) module).
Proof. exact cms_in_bounds. Qed.
Print Assumptions C13_cms_reads_inside.

Theorem C13_dlt_reads_inside :
  forall fuel self name module, named name dlt_ext -> bytes module -> len (i_songPos self) = 32 ->
    in_bounds (api_load fuel self (Some name) module).
Proof. exact dlt_in_bounds. Qed.
Print Assumptions C13_dlt_reads_inside.

Theorem C13_fc_reads_inside :
  forall fuel self name module, named name fc_ext -> bytes module -> len (i_songPos self) = 32 ->
    in_bounds (api_load fuel self (Some name) module).
Proof. exact fc_in_bounds. Qed.
Print Assumptions C13_fc_reads_inside.

Theorem C13_no_bad_write :
  forall fuel self name module, bytes module -> len (i_songPos self) = 32 -> no_bad_write (api_load fuel self name module).
Proof. exact no_bad_writes. Qed.
Print Assumptions C13_no_bad_write.

Theorem C13_cms_refuted :
  exists fuel self module, bytes module /\ len (i_songPos self) = 32
    /\ api_load fuel self (Some (str "x.cms"%string)) module = UB UbRead.
Proof. exact cms_reads_outside. Qed.
Print Assumptions C13_cms_refuted.

Theorem C13_mpt_refuted :
  exists fuel self module, bytes module /\ len (i_songPos self) = 32
    /\ api_load fuel self (Some (str "x.mpt"%string)) module = UB UbRead.
Proof. exact mpt_reads_outside. Qed.
Print Assumptions C13_mpt_refuted.

Theorem C13_tmc_refuted :
  exists fuel self module, bytes module /\ len (i_songPos self) = 32
    /\ api_load fuel self (Some (str "x.tmc"%string)) module = UB UbRead.
Proof. exact tmc_reads_outside. Qed.
Print Assumptions C13_tmc_refuted.

Theorem C13_tm2_refuted :
  exists fuel self module, bytes module /\ len (i_songPos self) = 32
    /\ api_load fuel self (Some (str "x.tm2"%string)) module = UB UbRead.
Proof. exact tm2_reads_outside. Qed.
Print Assumptions C13_tm2_refuted.

Theorem C13_rmt_refuted :
  exists fuel self module, bytes module /\ len (i_songPos self) = 32
    /\ api_load fuel self (Some (str "x.rmt"%string)) module = UB UbRead.
Proof. exact rmt_reads_outside. Qed.
Print Assumptions C13_rmt_refuted.

Example C13_example :
  In [99; 109; 99] cmc_exts /\ named (str "x.CMC"%string) [99; 109; 99] /\ bytes cmc_file /\ len (i_songPos blank_info) = 32
  /\ exists inf, api_load 85 blank_info (Some (str "x.CMC"%string)) cmc_file = Ok inf /\ i_songs inf = 2.
Proof. exact cmc_file_loads. Qed.

(* ---- C14 ---- *)
Theorem C14_load_ends :
  forall fuel self name ext module, In ext supported_exts -> named name ext -> bytes module -> len (i_songPos self) = 32 ->
    no_endless_commands ext module -> 60000 * (len module + 1) <= Z.of_nat fuel ->
    api_load fuel self (Some name) module <> OutOfFuel.
Proof. exact load_terminates. Qed.
Print Assumptions C14_load_ends.

Theorem C14_result_independent_of_fuel :
  forall n m self name module, (n <= m)%nat -> api_load n self name module <> OutOfFuel ->
    api_load m self name module = api_load n self name module.
Proof. exact fuel_independent. Qed.
Print Assumptions C14_result_independent_of_fuel.

Theorem C14_cmc_refuted :
  exists self module, bytes module /\ len (i_songPos self) = 32
    /\ forall fuel, api_load fuel self (Some (str "x.cmc"%string)) module = OutOfFuel.
Proof. exact cmc_never_ends. Qed.
Print Assumptions C14_cmc_refuted.

Theorem C14_rmt_refuted :
  exists self module, bytes module /\ len (i_songPos self) = 32
    /\ forall fuel, api_load fuel self (Some (str "x.rmt"%string)) module = OutOfFuel.
Proof. exact rmt_never_ends. Qed.
Print Assumptions C14_rmt_refuted.

Example C14_example :
  In [99; 109; 99] supported_exts /\ named (str "x.CMC"%string) [99; 109; 99] /\ bytes cmc_file
  /\ no_endless_commands [99; 109; 99] cmc_file.
Proof. exact cmc_file_ends. Qed.

(* ---- C41 ---- *)
Theorem C41_native_load_guarantees :
  forall fuel self name ext module inf, In ext native_exts -> named name ext -> bytes module -> len (i_songPos self) = 32 ->
    api_load fuel self (Some name) module = Ok inf ->
    native_loaded inf /\ native_type ext (i_type inf) /\ (ext = fc_ext \/ 1 <= i_songs inf).
Proof. exact native_load_result. Qed.
Print Assumptions C41_native_load_guarantees.

Theorem C41_fc_no_songs_refuted :
  exists fuel self module inf, bytes module /\ len (i_songPos self) = 32
    /\ api_load fuel self (Some (str "x.fc"%string)) module = Ok inf /\ i_songs inf = 0.
Proof. exact fc_loads_empty. Qed.
Print Assumptions C41_fc_no_songs_refuted.

Example C41_example :
  exists inf, api_load 85 blank_info (Some (str "x.CMC"%string)) cmc_file = Ok inf
    /\ i_songs inf = 2 /\ i_type inf = CMC /\ firstn 3 (i_durations inf) = [7701; 15402; -1].
Proof. exact cmc_file_result. Qed.

(* ---- C42 ---- *)
Theorem C42_durations_defined :
  forall fuel self name ext module, In ext cmc_exts \/ (ext = cms_ext /\ 1028 <= len module) \/ ext = dlt_ext ->
    named name ext -> bytes module -> len (i_songPos self) = 32 ->
    no_endless_commands ext module -> 60000 * (len module + 1) <= Z.of_nat fuel ->
    defined (api_load fuel self (Some name) module).
Proof. exact load_defined. Qed.
Print Assumptions C42_durations_defined.

Theorem C42_cmc_repeats_refuted :
  exists fuel self module, bytes module /\ len (i_songPos self) = 32
    /\ api_load fuel self (Some (str "x.cmc"%string)) module = UB UbOverflow.
Proof. exact cmc_overflows. Qed.
Print Assumptions C42_cmc_repeats_refuted.

Theorem C42_mpt_refuted :
  exists fuel self module, bytes module /\ len (i_songPos self) = 32
    /\ api_load fuel self (Some (str "x.mpt"%string)) module = UB UbOverflow.
Proof. exact mpt_overflows. Qed.
Print Assumptions C42_mpt_refuted.

Example C42_example :
  (In [99; 109; 99] cmc_exts \/ ([99; 109; 99] = cms_ext /\ 1028 <= len cmc_file) \/ [99; 109; 99] = dlt_ext)
  /\ no_endless_commands [99; 109; 99] cmc_file /\ defined (api_load 85 blank_info (Some (str "x.CMC"%string)) cmc_file).
Proof. exact cmc_file_defined. Qed.
