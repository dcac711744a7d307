(* A SAP file converted to NTSC *)
From Coq Require Import String.
From Verif Require Import Base InfoModel InfoSpec InfoProofs NativeModel WriterModel WriteModel SapSpec SapWitness OptionModel RetagModel RetagStandardSpec.

Definition timed_sap : list Z :=
  str "SAP" ++ [13; 10] ++ str "TYPE B" ++ [13; 10] ++ str "INIT 1000" ++ [13; 10] ++ str "PLAYER 1003" ++ [13; 10] ++ str "TIME 1:00" ++ [13; 10] ++ [255; 255; 0; 16; 0; 16; 96].
Definition ntsc_sap : list Z :=
  str "SAP" ++ [13; 10] ++ str "AUTHOR ""<?>""" ++ [13; 10] ++ str "NAME ""<?>""" ++ [13; 10] ++ str "DATE ""<?>""" ++ [13; 10]
  ++ str "NTSC" ++ [13; 10] ++ str "TYPE B" ++ [13; 10] ++ str "FASTPLAY 262" ++ [13; 10] ++ str "INIT 1000" ++ [13; 10] ++ str "PLAYER 1003" ++ [13; 10] ++ str "TIME 00:49.925" ++ [13; 10] ++ [255; 255; 0; 16; 0; 16; 96].

Lemma standard_example : exists inf, api_load 0 blank_info (Some (str "a.sap")) timed_sap = Ok inf /\ std_duration (with_ntsc 1 initial_options) 0 inf 0 = 49925 /\
  conv_module false (with_ntsc 1 initial_options) (str "b.sap") 0 inf timed_sap (repeat 0 (Z.to_nat 65000)) = Ok ntsc_sap.
Proof. eexists. split; [vm_compute; reflexivity|]. split; [vm_compute; reflexivity|]. vm_compute. reflexivity. Qed.

Lemma standard_again : exists inf inf', i_ntsc inf = true /\ api_can_set_ntsc inf = true /\ i_songs inf = 1 /\ at_ (i_durations inf) 0 = 60000 /\
  conv_info (with_ntsc 1 initial_options) inf = Ok inf' /\ i_ntsc inf' = true /\ at_ (i_durations inf') 0 = 49925.
Proof. exists (set_durations (60000 :: repeat (-1) 31) (set_fastplay 262 (set_ntsc true (set_songs 1 blank_info)))). eexists. repeat split. Qed.

Lemma accept_example : exists inf, api_load 0 blank_info (Some (str "a.sap")) timed_sap = Ok inf /\ acceptable (with_ntsc 1 initial_options) inf /\
  ~ acceptable (with_name (Some [10]) initial_options) inf /\ conv_module false (with_name (Some [10]) initial_options) (str "b.sap") 0 inf timed_sap [] = Fail.
Proof.
  eexists. split; [vm_compute; reflexivity|]. split; [|split; [|reflexivity]].
  - split; [intros t E; discriminate E|]. split; [intros t E; discriminate E|]. split; [intros t E; discriminate E|]. intros _. split; reflexivity.
  - intros (_ & A & _). specialize (A [10] eq_refl). destruct (set_title_spec blank_info [10]) as [(_ & B) | (B & _)]; [discriminate B|exact (B A)].
Qed.
