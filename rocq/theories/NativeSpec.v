(* Specifications used in the statements about loading native modules. *)
From Coq Require Import String.
From Verif Require Import Base InfoModel InfoSpec.

(* the computation read and wrote only inside its arrays; it may have stopped for another reason *)
Definition in_bounds {A} (m : outcome A) : Prop :=
  match m with UB UbOverflow | Ok _ | Fail | OutOfFuel => True | UB _ => False end.

(* the computation wrote only inside its arrays *)
Definition no_bad_write {A} (m : outcome A) : Prop :=
  match m with UB UbOverflow | UB UbRead | Ok _ | Fail | OutOfFuel => True | UB _ => False end.

(* what a successful load of a native module guarantees, apart from the number of songs *)
Record native_loaded (inf : info) : Prop := {
  nl_songs : 0 <= i_songs inf <= 32;
  nl_defsong : i_defsong inf = 0;
  nl_author : i_author inf = [];
  nl_date : i_date inf = [];
  nl_title : meta_text (i_title inf);
  nl_channels : 1 <= i_channels inf <= 2;
  nl_ntsc : i_ntsc inf = false;
  nl_fastplay : In (i_fastplay inf) [312; 156; 104; 78];
  nl_music : 0 <= i_music inf <= 65535;
  nl_init : i_init inf = -1;
  nl_covox : i_covox inf = -1;
  nl_durations : exists known, i_durations inf = known ++ repeat (-1) (Z.to_nat (32 - i_songs inf))
     /\ len known = i_songs inf /\ Forall (fun d => 0 <= d) known;
  nl_loops : len (i_loops inf) = 32;
  nl_songPos : len (i_songPos inf) = 32
}.

(* extensions by format *)
Definition cmc_exts : list (list Z) := [[99; 109; 99]; [99; 109; 51]; [99; 109; 114]; [100; 109; 99]]. (* cmc cm3 cmr dmc *)
Definition cms_ext : list Z := [99; 109; 115].
Definition dlt_ext : list Z := [100; 108; 116].
Definition mpt_exts : list (list Z) := [[109; 112; 116]; [109; 112; 100]]. (* mpt mpd *)
Definition rmt_ext : list Z := [114; 109; 116].
Definition tmc_exts : list (list Z) := [[116; 109; 99]; [116; 109; 56]]. (* tmc tm8 *)
Definition tm2_ext : list Z := [116; 109; 50].
Definition fc_ext : list Z := [102; 99].
(* all but SAP *)
Definition native_exts : list (list Z) := cmc_exts ++ [cms_ext; dlt_ext] ++ mpt_exts ++ [rmt_ext] ++ tmc_exts ++ [tm2_ext; fc_ext].

(* a CMC song line with the "repeat" command *)
Definition cmc_repeat_line (cms : bool) (module : list Z) (p : Z) : Prop :=
  0 <= p < 85 /\ Z.lor (at_ module (518 + p)) (if cms then 7 else 15) = 223.

(* the module type that a native extension selects *)
Definition native_type (ext : list Z) (t : module_type) : Prop :=
  (ext = [99; 109; 99] /\ t = CMC) \/ (ext = [100; 109; 99] /\ t = CMC) \/ (ext = [99; 109; 51] /\ t = CM3)
  \/ (ext = [99; 109; 114] /\ t = CMR) \/ (ext = cms_ext /\ t = CMS) \/ (ext = dlt_ext /\ t = DLT)
  \/ (In ext mpt_exts /\ t = MPT) \/ (ext = rmt_ext /\ t = RMT) \/ (In ext tmc_exts /\ t = TMC)
  \/ (ext = tm2_ext /\ t = TM2) \/ (ext = fc_ext /\ t = FC).

(* nothing in the file can make the duration computation go round for ever *)
Definition no_endless_commands (ext module : list Z) : Prop :=
  (ext = rmt_ext -> ~ In 191 module)
  /\ (In ext cmc_exts -> forall p, ~ cmc_repeat_line false module p)
  /\ (ext = cms_ext -> forall p, ~ cmc_repeat_line true module p).
