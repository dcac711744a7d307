(* The output files of asapconv: C40 and C51.  Specification in ConvSpec.v, model in ConvModel.v. *)
From Coq Require Import String FinFun.
From Verif Require Import Base BaseFacts InfoModel ConvModel ConvSpec ConvProofs ConvLoop ConvOutputs ConvFacts.

(* C40: whatever the pattern, the tags and the input file are, naming the outputs never leaves the buffer: asapconv opens its
   outputs or reports a fatal error. *)
Theorem C40_safe : forall j buffer, proper j -> 0 < len buffer -> defined (outputs j buffer).
Proof.
  intros j buffer Pj H.
  rewrite (outputs_ok j buffer (fun s => if (0 <=? s) && (s <? 32) then print_int (s + 1) else [48]) Pj H).
  - destruct (existsb _ _); [|exact I]. destruct (requested j); [|exact I]. destruct (all_of _ _); exact I.
  - intros s. destruct ((0 <=? s) && (s <? 32)) eqn:E; [|repeat constructor; discriminate]. eapply numeral_text. apply print_numeral. change (10 ^ 10) with 10000000000. lia.
  - intros s Hs. destruct Pj as (_ & _ & _ & _ & _ & _ & _ & S & _). replace ((0 <=? s) && (s <? 32)) with true by lia. apply print_numeral. change (10 ^ 10) with 10000000000. lia.
Qed.
Print Assumptions C40_safe.

(* ... even when the name fills the buffer to the last character *)
Definition brim : job := mkJob (str "%n.wav") (str "/music/tune.rmt") [] (str "A:B/C") [] None 1 0 (-1) true (fun _ => true).
Example C40_safe_example : proper brim /\ outputs brim (repeat 7 10) = Ok [(str "A_B_C.wav", 0)] /\ outputs brim (repeat 7 9) = Fail.
Proof.
  split; [|split; reflexivity].
  repeat split; try (repeat constructor; discriminate); vm_compute; congruence.
Qed.

(* C40: the reserved characters of an output name are those written in the pattern and those of the input file's own path,
   in their places: text substituted for a placeholder brings in none. *)
Theorem C40_reserved : forall j buffer l name song, proper j -> 0 < len buffer -> outputs j buffer = Ok l -> In (name, song) l ->
  len name < len buffer /\
  filter is_reserved name =
    filter is_reserved (stem (j_pattern j)) ++ filter is_reserved (inherited j) ++ filter is_reserved (dot_ext (j_pattern j)).
Proof.
  intros j buffer l name song Pj H. pose proof Pj as (_ & _ & _ & _ & _ & _ & _ & S & _).
  rewrite (outputs_ok j buffer (fun s => if (0 <=? s) && (s <? 32) then print_int (s + 1) else [48]) Pj H).
  - destruct (existsb _ _); [|discriminate]. destruct (requested j) as [songs|]; [|discriminate]. destruct (all_of _ songs) as [w|] eqn:E; [|discriminate].
    intros E' I. assert (l = w) by congruence. subst w. destruct (all_of_in _ _ _ _ E I) as (s & _ & Es). apply output_of_name in Es.
    destruct Es as (nm & En & Ef & L & _). assert (nm = name) by congruence. subst nm. split; [exact L|]. eapply file_name_reserved. exact Ef.
  - intros s. destruct ((0 <=? s) && (s <? 32)) eqn:E; [|repeat constructor; discriminate]. eapply numeral_text. apply print_numeral. change (10 ^ 10) with 10000000000. lia.
  - intros s Hs. replace ((0 <=? s) && (s <? 32)) with true by lia. apply print_numeral. change (10 ^ 10) with 10000000000. lia.
Qed.
Print Assumptions C40_reserved.

(* C40: unless the pattern is ".EXT", every path separator of the name is one of the pattern: the output stays in the directory
   the user named. *)
Theorem C40_directory : forall j buffer l name song, proper j -> 0 < len buffer -> outputs j buffer = Ok l -> In (name, song) l ->
  stem (j_pattern j) <> [] -> filter is_slash name = filter is_slash (j_pattern j).
Proof.
  intros j buffer l name song Pj H. pose proof Pj as (_ & _ & _ & _ & _ & _ & _ & S & _).
  rewrite (outputs_ok j buffer (fun s => if (0 <=? s) && (s <? 32) then print_int (s + 1) else [48]) Pj H).
  - destruct (existsb _ _) eqn:Ed; [|discriminate]. destruct (requested j) as [songs|]; [|discriminate]. destruct (all_of _ songs) as [w|] eqn:E; [|discriminate].
    intros E' I Hs. assert (l = w) by congruence. subst w. destruct (all_of_in _ _ _ _ E I) as (s & _ & Es). apply output_of_name in Es.
    destruct Es as (nm & En & Ef & L & _). assert (nm = name) by congruence. subst nm. eapply file_name_slashes; [exact Pj| |exact Hs|exact Ef].
    apply existsb_exists in Ed. destruct Ed as (x & Ix & Ex). apply Z.eqb_eq in Ex. now subst x.
  - intros s. destruct ((0 <=? s) && (s <? 32)) eqn:E; [|repeat constructor; discriminate]. eapply numeral_text. apply print_numeral. change (10 ^ 10) with 10000000000. lia.
  - intros s Hs. replace ((0 <=? s) && (s <? 32)) with true by lia. apply print_numeral. change (10 ^ 10) with 10000000000. lia.
Qed.
Print Assumptions C40_directory.

Definition album : job := mkJob (str "out/%a-%n %s (%d %e) 100%%.wav") (str "/music/tune.rmt") (str "../x") (str "A:B/C") (str "1990") (Some (str "rmt")) 2 1 (-1) true (fun _ => true).
Example C40_reserved_example : proper album /\
  outputs album (repeat 0 260) = Ok [(str "out/.._x-A_B_C 1 (1990 rmt) 100%.wav", 0); (str "out/.._x-A_B_C 2 (1990 rmt) 100%.wav", 1)].
Proof.
  split; [|vm_compute; reflexivity].
  repeat split; try (repeat constructor; discriminate); vm_compute; congruence.
Qed.

(* C51: the outputs are exactly those requested: with %s one for each song, in order, otherwise one, for the selected or the default
   song; each is named by the pattern; if any of them cannot be named or opened there is a fatal error. *)
Theorem C51_outputs : forall j buffer number, proper j -> 0 < len buffer ->
  (forall s, text (number s)) -> (forall s, 0 <= s < j_songs j -> numeral (number s) (s + 1)) ->
  outputs j buffer =
    if existsb (Z.eqb 46) (j_pattern j) then
      match requested j with
      | None => Fail
      | Some songs =>
        match all_of (fun s => output_of j (len buffer) (number s) s) songs with
        | None => Fail
        | Some l => Ok l
        end
      end
    else Fail.
Proof. exact outputs_ok. Qed.
Print Assumptions C51_outputs.

(* C51: there are such numerals, and only one for each song *)
Theorem C51_numerals : forall v, 0 <= v <= 32 -> exists t, numeral t v /\ text t /\ forall u, numeral u v -> u = t.
Proof.
  intros v H. assert (N : numeral (print_int v) v) by (apply print_numeral; change (10 ^ 10) with 10000000000; lia).
  exists (print_int v). split; [exact N|]. split; [eapply numeral_text; exact N|]. intros u Hu. eapply numeral_same; eassumption.
Qed.
Print Assumptions C51_numerals.

(* C51: no output overwrites another *)
Theorem C51_distinct : forall j buffer l, proper j -> 0 < len buffer -> outputs j buffer = Ok l -> NoDup (map fst l) /\ NoDup (map snd l).
Proof.
  intros j buffer l Pj H. pose proof Pj as (_ & _ & _ & _ & _ & _ & _ & S & _). set (number := fun s => if (0 <=? s) && (s <? 32) then print_int (s + 1) else [48]).
  assert (T : forall s, text (number s)).
  { intros s. unfold number. destruct ((0 <=? s) && (s <? 32)) eqn:E; [|repeat constructor; discriminate]. eapply numeral_text. apply print_numeral. change (10 ^ 10) with 10000000000. lia. }
  assert (Nm : forall s, 0 <= s < j_songs j -> numeral (number s) (s + 1)).
  { intros s Hs. unfold number. replace ((0 <=? s) && (s <? 32)) with true by lia. apply print_numeral. change (10 ^ 10) with 10000000000. lia. }
  rewrite (outputs_ok j buffer number Pj H T Nm). destruct (existsb _ _) eqn:Ed; [|discriminate].
  assert (D : In 46 (j_pattern j)). { apply existsb_exists in Ed. destruct Ed as (x & Ix & Ex). apply Z.eqb_eq in Ex. now subst x. }
  destruct (requested j) as [songs|] eqn:R; [|discriminate]. destruct (all_of _ songs) as [w|] eqn:E; [|discriminate].
  intros E'. assert (l = w) by congruence. subst w. clear E'.
  assert (SN : map snd l = songs). { revert l E. clear. induction songs as [|s r IH]; intros l E; cbn [all_of] in E.
    - assert (l = []) by congruence. now subst l.
    - destruct (output_of j (len buffer) (number s) s) as [y|] eqn:Ey; [|discriminate]. destruct (all_of _ r) as [w|]; [|discriminate].
      assert (l = y :: w) by congruence. subst l. apply output_of_name in Ey. destruct Ey as (nm & -> & _). cbn [map snd]. f_equal. now apply IH. }
  unfold requested in R. destruct (numbered (j_pattern j)) eqn:C.
  - destruct (j_allow j && (j_arg_song j <? 0)); [|discriminate]. assert (RS : songs = map Z.of_nat (seq 0 (Z.to_nat (j_songs j)))) by congruence.
    assert (Nd : NoDup songs). { rewrite RS. apply FinFun.Injective_map_NoDup; [intros a b; apply Nat2Z.inj|apply seq_NoDup]. }
    split; [|now rewrite SN]. eapply (names_differ j (len buffer) number songs l Pj D C); [|exact Nd|exact E].
    intros s I. apply Nm. rewrite RS in I. apply in_map_iff in I. destruct I as (m & <- & I). apply in_seq in I. lia.
  - assert (L1 : exists s, songs = [s]).
    { destruct (j_arg_song j <? 0); [exists (j_default j); congruence|]. destruct (j_arg_song j <? j_songs j); [exists (j_arg_song j); congruence|discriminate]. }
    destruct L1 as (s & ->). destruct l as [|y [|z l]]; try discriminate. cbn [map]. split; (constructor; [intros []|constructor]).
Qed.
Print Assumptions C51_distinct.

Definition many : job := mkJob (str "%s%s.wav") (str "x.sap") [] (str "x") [] None 12 0 (-1) true (fun _ => true).
Definition one : job := mkJob (str "copies/.sap") (str "C:\music\x.y.cmc") [] [] [] None 3 1 2 false (fun _ => true).
Definition both : job := mkJob (str "%s.wav") (str "x.sap") [] [] [] None 3 1 2 true (fun _ => true).
Example C51_example :
  proper many /\ match outputs many (repeat 0 260) with Ok l => map fst (skipn 9 l) = [str "1010.wav"; str "1111.wav"; str "1212.wav"] | _ => False end /\
  proper one /\ outputs one (repeat 0 260) = Ok [(str "copies/x.y.sap", 2)] /\
  proper both /\ outputs both (repeat 0 260) = Fail.
Proof.
  assert (P : forall j, text (j_pattern j) -> text (j_input j) -> text (j_name j) -> j_author j = [] -> j_date j = [] -> j_ext j = None ->
    is_our_file (j_input j) = true -> 1 <= j_songs j <= 32 -> 0 <= j_default j -> proper j).
  { intros j H1 H2 H3 H4 H5 H6 H7 H8 H9. unfold proper. rewrite H4, H5, H6. repeat split; try assumption; try constructor; lia. }
  split; [|split; [vm_compute; reflexivity|split; [|split; [vm_compute; reflexivity|split; [|vm_compute; reflexivity]]]]].
  all: apply P; try reflexivity; try (repeat constructor; discriminate); vm_compute; split; congruence.
Qed.
