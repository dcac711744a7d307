(* the files that asapconv writes for an input file when it writes modules *)
From Coq Require Import String.
From Verif Require Import Base BaseFacts InfoModel ConvModel ConvSpec ConvProofs ConvLoop ConvOutputs ConvFacts.

Lemma one_file j buffer l : proper j -> 0 < len buffer -> j_allow j = false -> outputs j buffer = Ok l ->
  exists name song, l = [(name, song)] /\ (j_arg_song j < 0 /\ song = j_default j \/ 0 <= j_arg_song j < j_songs j /\ song = j_arg_song j).
Proof.
  intros Pj H A O. pose proof Pj as (_ & _ & _ & _ & _ & _ & _ & S & _). set (number := fun s => if (0 <=? s) && (s <? 32) then print_int (s + 1) else [48]).
  assert (T : forall s, text (number s)).
  { intros s. unfold number. destruct ((0 <=? s) && (s <? 32)) eqn:E; [|repeat constructor; discriminate]. eapply numeral_text. apply print_numeral. change (10 ^ 10) with 10000000000. lia. }
  assert (Nm : forall s, 0 <= s < j_songs j -> numeral (number s) (s + 1)).
  { intros s Hs. unfold number. replace ((0 <=? s) && (s <? 32)) with true by lia. apply print_numeral. change (10 ^ 10) with 10000000000. lia. }
  rewrite (outputs_ok j buffer number Pj H T Nm) in O. destruct (existsb _ _); [|discriminate].
  assert (R : forall songs, requested j = Some songs -> exists song, songs = [song] /\ (j_arg_song j < 0 /\ song = j_default j \/ 0 <= j_arg_song j < j_songs j /\ song = j_arg_song j)).
  { intros songs. unfold requested. rewrite A. cbn [andb]. destruct (numbered (j_pattern j)); [discriminate|]. destruct (Z.ltb_spec (j_arg_song j) 0); [intros [= <-]; eexists; split; [reflexivity|lia]|].
    destruct (Z.ltb_spec (j_arg_song j) (j_songs j)); [|discriminate]. intros [= <-]. eexists. split; [reflexivity|lia]. }
  destruct (requested j) as [songs|]; [|discriminate]. destruct (R songs eq_refl) as (song & -> & W). cbn [all_of] in O.
  destruct (output_of j (len buffer) (number song) song) as [y|] eqn:Y; [|discriminate]. injection O as <-. apply output_of_name in Y. destruct Y as (name & -> & _). exists name, song. split; [reflexivity|exact W].
Qed.
