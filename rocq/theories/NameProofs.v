(* A file name has a given packed extension exactly when it is named so. *)
From Coq Require Import String.
From Verif Require Import Base BaseFacts InfoModel InfoSpec InfoProofs SapSpec.

(* extensions of two or three lowercase letters or digits *)
Definition plain_ext (e : list Z) : Prop :=
  (exists a b c, e = [a; b; c] /\ is_target a = true /\ is_target b = true /\ is_target c = true)
  \/ (exists a b, e = [a; b] /\ is_target a = true /\ is_target b = true).

Lemma pack_plain e ext : Forall (fun c => 33 <= c <= 122) e -> plain_ext ext ->
  (Z.lor (pack_le e mod 4294967296) 2105376 = packed_of ext <-> map lower e = ext).
Proof.
  intros He Hx. pose proof (proj1 (Forall_forall _ _) He) as R. cbn beta in R.
  assert (P : forall x, is_target x = true -> 48 <= x <= 122) by apply is_target_bound.
  destruct e as [|a [|b [|c e]]].
  - change (Z.lor (pack_le [] mod 4294967296) 2105376) with 2105376.
    destruct Hx as [(x & y & z & -> & T1 & T2 & T3)|(x & y & -> & T1 & T2)]; cbn [packed_of map]; apply P in T1; apply P in T2.
    + apply P in T3. split; [lia|discriminate].
    + split; [lia|discriminate].
  - pose proof (R a ltac:(now left)) as Ra. pose proof (lor32_nonspace a Ra) as Na. cbn [pack_le map]. rewrite Z.mod_small by lia.
    replace (a + 256 * 0) with (a + 256 * (0 + 256 * (0 + 256 * 0))) by lia. rewrite lor_pack3 by lia. change (Z.lor 0 32) with 32.
    destruct Hx as [(x & y & z & -> & T1 & T2 & T3)|(x & y & -> & T1 & T2)]; cbn [packed_of]; apply P in T1; apply P in T2.
    + apply P in T3. split; [lia|discriminate].
    + split; [lia|discriminate].
  - pose proof (R a ltac:(now left)) as Ra. pose proof (R b ltac:(right; now left)) as Rb.
    pose proof (lor32_nonspace a Ra) as Na. pose proof (lor32_nonspace b Rb) as Nb. cbn [pack_le map]. rewrite Z.mod_small by lia.
    replace (a + 256 * (b + 256 * 0)) with (a + 256 * (b + 256 * (0 + 256 * 0))) by lia. rewrite lor_pack3 by lia. change (Z.lor 0 32) with 32.
    destruct Hx as [(x & y & z & -> & T1 & T2 & T3)|(x & y & -> & T1 & T2)]; cbn [packed_of];
      pose proof (P _ T1); pose proof (P _ T2).
    + apply P in T3. split; [lia|discriminate].
    + split.
      * intros E. apply packed_unique in E; try lia. destruct E as (E1 & E2 & _).
        now rewrite (proj1 (lor32_lower a x Ra T1 ltac:(lia)) E1), (proj1 (lor32_lower b y Rb T2 ltac:(lia)) E2).
      * intros E. injection E as E1 E2.
        rewrite (proj2 (lor32_lower a x Ra T1 ltac:(lia)) E1), (proj2 (lor32_lower b y Rb T2 ltac:(lia)) E2). lia.
  - pose proof (R a ltac:(now left)) as Ra. pose proof (R b ltac:(right; now left)) as Rb.
    pose proof (R c ltac:(right; right; now left)) as Rc.
    pose proof (lor32_nonspace a Ra) as Na. pose proof (lor32_nonspace b Rb) as Nb. pose proof (lor32_nonspace c Rc) as Nc.
    destruct e as [|d e].
    + cbn [pack_le map]. rewrite Z.mod_small by lia. rewrite lor_pack3 by lia.
      destruct Hx as [(x & y & z & -> & T1 & T2 & T3)|(x & y & -> & T1 & T2)]; cbn [packed_of];
        pose proof (P _ T1); pose proof (P _ T2).
      * pose proof (P _ T3). split.
        -- intros E. apply packed_unique in E; try lia. destruct E as (E1 & E2 & E3).
           now rewrite (proj1 (lor32_lower a x Ra T1 ltac:(lia)) E1), (proj1 (lor32_lower b y Rb T2 ltac:(lia)) E2),
             (proj1 (lor32_lower c z Rc T3 ltac:(lia)) ltac:(lia)).
        -- intros E. injection E as E1 E2 E3.
           rewrite (proj2 (lor32_lower a x Ra T1 ltac:(lia)) E1), (proj2 (lor32_lower b y Rb T2 ltac:(lia)) E2),
             (proj2 (lor32_lower c z Rc T3 ltac:(lia)) E3). lia.
      * split; [|discriminate]. intros E. apply packed_unique in E; lia.
    + pose proof (R d ltac:(right; right; right; now left)) as Rd. cbn [pack_le].
      assert (M : (a + 256 * (b + 256 * (c + 256 * (d + 256 * pack_le e)))) mod 4294967296 =
                  a + 256 * (b + 256 * (c + 256 * d))) by lia.
      rewrite M, lor_pack3 by lia.
      destruct Hx as [(x & y & z & -> & T1 & T2 & T3)|(x & y & -> & T1 & T2)]; cbn [packed_of map];
        pose proof (P _ T1); pose proof (P _ T2); try pose proof (P _ T3); (split; [lia|discriminate]).
Qed.

Lemma plain_chars e : plain_ext (map lower e) -> Forall ext_char e.
Proof.
  intros [(x1 & x2 & x3 & E & T1 & T2 & T3)|(x1 & x2 & E & T1 & T2)].
  - destruct e as [|a [|b [|c [|]]]]; try discriminate. injection E as E1 E2 E3.
    repeat (apply Forall_cons; [eapply lower_target_char; eassumption|]). apply Forall_nil.
  - destruct e as [|a [|b [|]]]; try discriminate. injection E as E1 E2.
    repeat (apply Forall_cons; [eapply lower_target_char; eassumption|]). apply Forall_nil.
Qed.

Lemma packed_of_nonzero ext : plain_ext ext -> packed_of ext <> 0.
Proof.
  intros [(x1 & x2 & x3 & -> & T1 & T2 & T3)|(x1 & x2 & -> & T1 & T2)]; cbn [packed_of];
    pose proof (is_target_bound _ T1); pose proof (is_target_bound _ T2); try pose proof (is_target_bound _ T3); lia.
Qed.

Lemma packed_named_iff name ext : plain_ext ext -> (get_packed_ext name = packed_of ext <-> named name ext).
Proof.
  intros Hx. unfold get_packed_ext. split.
  - intros E. assert (N : packed_ext_loop (rev name) 0 <> 0) by (rewrite E; now apply packed_of_nonzero).
    destruct (packed_ext_loop_none _ _ N) as (e & r & Er & Hr & He).
    assert (En : name = rev r ++ [46] ++ rev e).
    { rewrite <- (rev_involutive name), Er, rev_app_distr. cbn [rev]. now rewrite <- app_assoc. }
    assert (Hr' : rev r <> []) by (intros C; apply Hr; rewrite <- (rev_involutive r), C; reflexivity).
    exists (rev r), (rev e). split; [exact En|]. split; [exact Hr'|].
    rewrite Er in E. replace e with (rev (rev e)) in E by apply rev_involutive.
    replace r with (rev (rev r)) in E by apply rev_involutive.
    rewrite packed_ext_loop_run in E; [|intros C; apply Hr; rewrite <- (rev_involutive r), <- (rev_involutive (rev r)), C; reflexivity|now apply Forall_rev|lia].
    rewrite Z.mul_0_l, Z.add_0_l in E. exact (proj1 (pack_plain (rev e) ext (ext_chars _ (Forall_rev He)) Hx) E).
  - intros (stem & e & -> & Hs & <-). pose proof (plain_chars _ Hx) as He.
    rewrite !rev_app_distr. cbn [rev app]. rewrite <- app_assoc. cbn [app].
    rewrite packed_ext_loop_run by (assumption || lia).
    rewrite Z.mul_0_l, Z.add_0_l. exact (proj2 (pack_plain e _ (ext_chars _ He) Hx) eq_refl).
Qed.

Lemma named_unique name e f : named name e -> named name f -> plain_ext e -> plain_ext f -> e = f.
Proof.
  intros He Hf Pe Pf. pose proof (proj2 (packed_named_iff name e Pe) He) as A. pose proof (proj2 (packed_named_iff name f Pf) Hf) as C.
  rewrite A in C. clear A He Hf.
  destruct Pe as [(x1 & x2 & x3 & -> & T1 & T2 & T3)|(x1 & x2 & -> & T1 & T2)]; destruct Pf as [(y1 & y2 & y3 & -> & U1 & U2 & U3)|(y1 & y2 & -> & U1 & U2)];
    cbn [packed_of] in C; repeat match goal with H : is_target _ = true |- _ => apply is_target_bound in H end;
    apply packed_unique in C; try lia; destruct C as (-> & -> & E); try lia; f_equal; try lia.
  now replace x3 with y3 by lia.
Qed.
