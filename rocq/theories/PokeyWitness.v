(* Concrete POKEY runs for the examples and refutations of PropertiesPokey.v *)
From Coq Require Import String.
From Verif Require Import Base BaseFacts Loop MemModel InfoModel PokeyModel MachineModel PlayModel PokeyProofs NoiseSpec NoiseProofs PokeyFacts PlaySpec
  SapWitness MachineWitness CpuWitness.

(* a SAP file whose INIT routine turns channel 1 to constant volume 15 and whose PLAYER turns it to constant volume 0 *)
Definition loud_sap : list Z :=
  str "SAP" ++ [13; 10] ++ str "TYPE B" ++ [13; 10] ++ str "INIT 0600" ++ [13; 10] ++ str "PLAYER 0610" ++ [13; 10]
  ++ [255; 255; 0; 6; 21; 6]
  ++ [0xA9; 0x1F; 0x8D; 0x01; 0xD2; 0x60; 0; 0; 0; 0; 0; 0; 0; 0; 0; 0]
  ++ [0xA9; 0x10; 0x8D; 0x01; 0xD2; 0x60].

Definition play_and_generate (rate : Z) (name : option (list Z)) (module : list Z) (format : sample_format) (n : Z) : outcome (Z * list Z * asap) :=
  '(b, s) <- load_and_play rate name module ;;
  if (b : bool) then api_generate (repeat 0 (Z.to_nat n)) n format s else Fail.

Lemma loud_reads : play_and_generate 44100 (Some (str "x.sap"%string)) loud_sap U8 100 = UB UbRead.
Proof. vm_compute. reflexivity. Qed.

(* the initialised chip *)
Notation started := (pokey_initialize 44100 blank_pokey).

(* AUDF1, AUDC1 (square wave, volume 15), AUDC2 (constant volume 7), AUDF3, AUDC3 (noise, volume 4); two frames *)
Definition melody : list chip_op :=
  [Write 8 1 8; Write 0 200 10; Write 1 0xAF 14; Write 3 0x17 18; Write 4 255 20; Write 5 0x84 22; Write 7 0xA9 35560; EndFrame 35568; SamplesUsed 884; StartFrame; Write 1 0xA3 30000; EndFrame 35568].
Lemma melody_sum : exists p0, started = Ok p0 /\ Forall (op_ok (len (pk_deltaBuffer p0))) melody /\
  result (fun p => (pk_sumDACInputs p, map (fun c => (ch_delta c, ch_audc c)) [pk_ch0 p; pk_ch1 p; pk_ch2 p; pk_ch3 p]))
    (chip_runs fresh_pair melody p0) = Some (11, [(-3, 163); (7, 23); (4, 132); (-9, 169)]).
Proof.
  assert (L : result (fun p => len (pk_deltaBuffer p)) started = Some 918) by (vm_compute; reflexivity).
  assert (S : result (fun p0 => result (fun p => (pk_sumDACInputs p, map (fun c => (ch_delta c, ch_audc c)) [pk_ch0 p; pk_ch1 p; pk_ch2 p; pk_ch3 p]))
    (chip_runs fresh_pair melody p0)) started = Some (Some (11, [(-3, 163); (7, 23); (4, 132); (-9, 169)]))) by (vm_compute; reflexivity).
  destruct started as [p0| | |]; try discriminate L. exists p0. cbn [result] in L, S. injection L as L. injection S as S. split; [reflexivity|]. split; [|exact S].
  rewrite L. repeat constructor; unfold byte; lia.
Qed.

(* a saturating accumulator *)
Definition hot : pokey := set_pk_deltaBuffer [5; 70000000] (set_pk_iirAcc (-2000) blank_pokey).
Lemma hot_u8 : result (fun '(b, o, p) => (b, o, pk_iirAcc p)) (store_sample [1; 2; 3; 4] 1 1 U8 hot) = Some ([1; 255; 3; 4], 2, 69998000).
Proof. vm_compute. reflexivity. Qed.
Lemma hot_le : result (fun '(b, o, p) => (b, o, pk_iirAcc p)) (store_sample [1; 2; 3; 4] 1 0 S16LE hot) = Some ([1; 255; 255; 4], 3, -1995).
Proof. vm_compute. reflexivity. Qed.
Lemma hot_be : result (fun '(b, o, p) => (b, o, pk_iirAcc p)) (store_sample [1; 2; 3; 4] 1 1 S16BE hot) = Some ([1; 127; 255; 4], 3, 69998000).
Proof. vm_compute. reflexivity. Qed.

(* the chip after AUDF1 = 20, AUDC1 = volume 15 *)
Notation tuned := (p <- started ;; chip_runs fresh_pair [Write 0 20 10; Write 1 0xAF 14; Write 8 1 18] p).
Lemma tuned_ticks :
  result (fun p => map ch_tickCycle [pk_ch0 p; pk_ch1 p; pk_ch2 p; pk_ch3 p]) tuned = Some [18; 18; 18; 18] /\
  result (fun p => map ch_tickCycle [pk_ch0 p; pk_ch1 p; pk_ch2 p; pk_ch3 p]) (p <- tuned ;; generate_until fresh_pair 10000 p)
  = Some [11988; 10050; 10050; 10050].
Proof. vm_compute. split; reflexivity. Qed.

(* RANDOM right after the start, three clocks later, and with the 9-bit register selected *)
Definition short_noise : pokeyPair := set_pp_basePokey (set_pk_audctl 128 (pp_basePokey fresh_pair)) fresh_pair.
Lemma random_bytes :
  map (fun c => result (fun v => v) (pair_peek 0xD20A c fresh_pair)) [20; 33] = [Some 31; Some 255] /\
  map (fun c => result (fun v => v) (pair_peek 0xD20A c short_noise)) [20; 33] = [Some 56; Some 18].
Proof. vm_compute. split; reflexivity. Qed.

Lemma runs_kept rate pi n (l : list chip_op) {A} (f : pokey -> A) t m : m = pokey_initialize rate pi ->
  result (fun p => len (pk_deltaBuffer p)) m = Some n -> Forall (op_ok n) l ->
  result f (p <- m ;; chip_runs fresh_pair l p) = Some t -> exists p, (p <- m ;; chip_runs fresh_pair l p) = Ok p /\ pokey_ok p.
Proof.
  intros Hm S V T. destruct m as [p0| | |]; try discriminate S. injection S as <-. cbn [bind] in *.
  pose proof (chip_runs_ok fresh_pair _ _ V p0 (initialized_live rate pi p0 fresh_pair (eq_sym Hm))) as W.
  destruct (chip_runs fresh_pair l p0) as [p| | |]; try discriminate T. exists p. split; [reflexivity|]. apply (lv_ok _ _ _ _ _ W).
Qed.
Lemma started_len : result (fun p => len (pk_deltaBuffer p)) started = Some 918. Proof. vm_compute. reflexivity. Qed.
Lemma tuned_ok : exists p, tuned = Ok p /\ pokey_ok p.
Proof.
  refine (runs_kept 44100 blank_pokey 918 [Write 0 20 10; Write 1 0xAF 14; Write 8 1 18] (fun p => map ch_tickCycle [pk_ch0 p; pk_ch1 p; pk_ch2 p; pk_ch3 p]) [18; 18; 18; 18]
    started _ started_len _ (proj1 tuned_ticks)).
  - reflexivity.
  - repeat constructor; unfold byte; lia.
Qed.
