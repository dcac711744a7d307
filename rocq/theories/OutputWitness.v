(* A song of ten milliseconds as a WAV file *)
From Coq Require Import String.
From Verif Require Import Base MemModel InfoModel InfoSpec PokeyModel MachineModel PlayModel PlaySpec SessionSpec SapWitness MachineWitness CpuWitness PlayWitness WavSpec OptionModel OutputModel OutputSpec.

Definition zeros : list Z := repeat 0 (Z.to_nat 8192).
Definition short_options : options := with_duration 10 (with_word false initial_options).
Lemma picked {A} (m : outcome asap) (f : asap -> A) v : result f m = Some v -> exists s, m = Ok s /\ f s = v.
Proof. destruct m as [s| | |]; cbn [result]; try discriminate. intros [= <-]. exists s. now split. Qed.
Lemma named {A B} (m : outcome (A * B)) v : result fst m = Some v -> exists w, m = Ok (v, w).
Proof. destruct m as [[x y]| | |]; cbn [result fst]; try discriminate. intros [= <-]. now exists y. Qed.

Lemma short_file : exists s s', ready s /\ m_silenceCycles s = 0 /\ m_currentSampleRate s = 8000 /\
  conv_file 2 zeros short_options true 0 s = Ok (wave_header 1 8000 1 [] 80 ++ curve, s').
Proof.
  assert (E : result (fun s => (m_silenceCycles s, m_currentSampleRate s, result fst (conv_file 2 zeros short_options true 0 s)))
    (asap_load 100 sap_name loop_sap (api_set_sample_rate 8000 heard_asap)) = Some (0, 8000, Some (wave_header 1 8000 1 [] 80 ++ curve))) by (vm_compute; reflexivity).
  apply picked in E. destruct E as (s & L & E). apply pair_equal_spec in E. destruct E as (E & E3). apply pair_equal_spec in E. destruct E as (E1 & E2).
  apply named in E3. destruct E3 as (s' & E3). exists s, s'.
  split; [left; exists 100%nat, sap_name, loop_sap, (api_set_sample_rate 8000 heard_asap); split; [apply heard_object|split; [apply loop_bytes|split; [cbn; lia|exact L]]]|].
  split; [exact E1|]. split; [exact E2|exact E3].
Qed.
