(* A SAP file with two songs of unknown length *)
From Coq Require Import String.
From Verif Require Import Base InfoModel InfoSpec NativeModel WriterModel WriteModel SapSpec SapWitness OptionModel RetagModel RetagSpec.

Definition untimed_sap : list Z :=
  str "SAP" ++ [13; 10] ++ str "SONGS 2" ++ [13; 10] ++ str "TYPE B" ++ [13; 10] ++ str "INIT 1000" ++ [13; 10] ++ str "PLAYER 1003" ++ [13; 10] ++ [255; 255; 0; 16; 0; 16; 96].
Definition retagged_sap : list Z :=
  str "SAP" ++ [13; 10] ++ str "AUTHOR ""<?>""" ++ [13; 10] ++ str "NAME ""B""" ++ [13; 10] ++ str "DATE ""<?>""" ++ [13; 10] ++ str "SONGS 2" ++ [13; 10]
  ++ str "TYPE B" ++ [13; 10] ++ str "INIT 1000" ++ [13; 10] ++ str "PLAYER 1003" ++ [13; 10] ++ [255; 255; 0; 16; 0; 16; 96].
Definition retag_options : options := with_name (Some (str "B")) (with_duration 5000 initial_options).

Lemma retag_example : exists inf, api_load 0 blank_info (Some (str "a.sap")) untimed_sap = Ok inf /\
  conv_module false retag_options (str "b.sap") 1 inf untimed_sap (repeat 0 (Z.to_nat 65000)) = Ok retagged_sap.
Proof. eexists. split; [vm_compute; reflexivity|]. vm_compute. reflexivity. Qed.

Lemma duration_lost : exists inf inf3, api_load 0 blank_info (Some (str "a.sap")) untimed_sap = Ok inf /\ o_duration retag_options = 5000 /\ i_songs inf = 2 /\
  conv_module false retag_options (str "b.sap") 1 inf untimed_sap (repeat 0 (Z.to_nat 65000)) = Ok retagged_sap /\
  api_load 0 blank_info (Some (str "b.sap")) retagged_sap = Ok inf3 /\ at_ (i_durations inf3) 1 = -1.
Proof.
  destruct retag_example as (inf & L & C). exists inf. eexists. split; [exact L|]. split; [reflexivity|]. split; [|split; [exact C|split; [vm_compute; reflexivity|reflexivity]]].
  revert L. vm_compute. intros [= <-]. reflexivity.
Qed.

Lemma address_ignored : exists o inf inf', o_address o = 65535 /\ i_type inf = SAP_C /\ i_music inf = 8192 /\ conv_info o inf = Ok inf' /\ i_music inf' = 8192.
Proof. exists (with_address 65535 initial_options), (set_music 8192 (set_type SAP_C blank_info)). eexists. repeat split. Qed.
