(* Descriptions of extensions *)
From Coq Require Import String.
From Verif Require Import Base BaseFacts InfoModel InfoSpec InfoProofs WindowSpec SapSpec WriteModel WriterModel SaveProofs DescribeModel DescribeSpec.

Lemma pack_3 a b c : 33 <= a <= 122 -> 33 <= b <= 122 -> 33 <= c <= 122 -> pack_ext [a; b; c] = Z.lor a 32 + 256 * (Z.lor b 32 + 256 * Z.lor c 32).
Proof.
  intros Ha Hb Hc. unfold pack_ext. replace ((a <=? 122) && (b <=? 122) && (c <=? 122)) with true by lia.
  rewrite (lor_shiftl_add a b 8) by (change (2 ^ 8) with 256; lia). rewrite lor_shiftl_add by (change (2 ^ 8) with 256; change (2 ^ 16) with 65536; lia).
  replace (a + b * 2 ^ 8 + c * 2 ^ 16) with (a + 256 * (b + 256 * (c + 256 * 0))) by (change (2 ^ 8) with 256; change (2 ^ 16) with 65536; lia). rewrite lor_pack3 by lia. lia.
Qed.
Lemma pack_2 a b : 33 <= a <= 122 -> 33 <= b <= 122 -> pack_ext [a; b] = Z.lor a 32 + 256 * (Z.lor b 32 + 256 * 32).
Proof.
  intros Ha Hb. unfold pack_ext. replace ((a <=? 122) && (b <=? 122)) with true by lia.
  rewrite (lor_shiftl_add a b 8) by (change (2 ^ 8) with 256; lia).
  replace (a + b * 2 ^ 8) with (a + 256 * (b + 256 * (0 + 256 * 0))) by (change (2 ^ 8) with 256; lia). rewrite lor_pack3 by lia. change (Z.lor 0 32) with 32. lia.
Qed.

Definition target_ext (e : list Z) : bool := ((len e =? 2) || (len e =? 3)) && forallb is_target e.

Lemma pack_is e ext : target_ext e = true -> Forall (fun c => 33 <= c <= 122) ext -> (pack_ext ext =? packed_of e) = eqb_list (map lower ext) e.
Proof.
  intros He H. apply eq_true_iff_eq. rewrite Z.eqb_eq, eqb_list_spec. unfold target_ext in He. apply andb_true_iff in He. destruct He as [L T].
  assert (P : 0 < packed_of e).
  { destruct e as [|x [|y [|z [|]]]]; try (exfalso; unfold len in L; cbn [List.length] in L; lia); cbn [forallb] in T; rewrite !andb_true_iff in T;
      [destruct T as (T1 & T2 & _)|destruct T as (T1 & T2 & T3 & _); pose proof (is_target_bound _ T3)]; pose proof (is_target_bound _ T1); pose proof (is_target_bound _ T2); cbn [packed_of]; lia. }
  pose proof (proj1 (Forall_forall _ _) H) as R. cbn beta in R.
  destruct ext as [|a [|b [|c [|d ext]]]].
  1,2,5: (cbn [pack_ext map]; split; [lia|]; intros E; rewrite <- E in L; unfold len in L; cbn [List.length] in L; lia).
  - pose proof (R a ltac:(now left)) as Ra. pose proof (R b ltac:(right; now left)) as Rb. rewrite pack_2 by assumption. pose proof (lor32_nonspace a Ra) as Na. pose proof (lor32_nonspace b Rb) as Nb.
    destruct e as [|x [|y [|z [|]]]]; try (exfalso; unfold len in L; cbn [List.length] in L; lia); cbn [forallb] in T; rewrite !andb_true_iff in T; cbn [packed_of map].
    + destruct T as (T1 & T2 & _). pose proof (is_target_bound _ T1). pose proof (is_target_bound _ T2). pose proof (lor32_lower a x Ra T1 ltac:(lia)) as [A1 A2]. pose proof (lor32_lower b y Rb T2 ltac:(lia)) as [B1 B2]. split.
      * intros E. apply packed_unique in E; try lia. destruct E as (E1 & E2 & _). now rewrite (A1 E1), (B1 E2).
      * intros E. injection E as E1 E2. rewrite (A2 E1), (B2 E2). lia.
    + destruct T as (T1 & T2 & T3 & _). pose proof (is_target_bound _ T1). pose proof (is_target_bound _ T2). pose proof (is_target_bound _ T3). split; [|discriminate]. intros E. exfalso. apply packed_unique in E; lia.
  - pose proof (R a ltac:(now left)) as Ra. pose proof (R b ltac:(right; now left)) as Rb. pose proof (R c ltac:(right; right; now left)) as Rc. rewrite pack_3 by assumption.
    pose proof (lor32_nonspace a Ra) as Na. pose proof (lor32_nonspace b Rb) as Nb. pose proof (lor32_nonspace c Rc) as Nc.
    destruct e as [|x [|y [|z [|]]]]; try (exfalso; unfold len in L; cbn [List.length] in L; lia); cbn [forallb] in T; rewrite !andb_true_iff in T; cbn [packed_of map].
    + destruct T as (T1 & T2 & _). pose proof (is_target_bound _ T1). pose proof (is_target_bound _ T2). split; [|discriminate]. intros E. exfalso. apply packed_unique in E; lia.
    + destruct T as (T1 & T2 & T3 & _). pose proof (is_target_bound _ T1). pose proof (is_target_bound _ T2). pose proof (is_target_bound _ T3).
      pose proof (lor32_lower a x Ra T1 ltac:(lia)) as [A1 A2]. pose proof (lor32_lower b y Rb T2 ltac:(lia)) as [B1 B2]. pose proof (lor32_lower c z Rc T3 ltac:(lia)) as [C1 C2]. split.
      * intros E. apply packed_unique in E; try lia. destruct E as (E1 & E2 & E3). now rewrite (A1 E1), (B1 E2), (C1 E3).
      * intros E. injection E as E1 E2 E3. now rewrite (A2 E1), (B2 E2), (C2 E3).
Qed.

Lemma description_ok ext : Forall (fun c => 33 <= c <= 122) ext -> api_ext_description ext = described (map lower ext).
Proof.
  intros H. unfold api_ext_description, described. cbv zeta.
  assert (K : forall s v, target_ext (str s) = true -> packed_of (str s) = v -> (pack_ext ext =? v) = eqb_list (map lower ext) (str s)) by (intros s v T <-; now apply pack_is).
  rewrite (K "sap"%string 7364979), (K "cmc"%string 6516067), (K "cm3"%string 3370339), (K "cmr"%string 7499107), (K "cms"%string 7564643), (K "dmc"%string 6516068), (K "dlt"%string 7629924),
    (K "mpt"%string 7630957), (K "mpd"%string 6582381), (K "rmt"%string 7630194), (K "tmc"%string 6516084), (K "tm8"%string 3698036), (K "tm2"%string 3304820), (K "fc"%string 2122598), (K "xex"%string 7890296) by (vm_compute; reflexivity).
  generalize (map lower ext). intros e. unfold descriptions. cbn [map fst snd find option_map].
  repeat match goal with |- context [if eqb_list e ?x then _ else _] => destruct (eqb_list e x); [reflexivity|] end.
  destruct (eqb_list e (str "tmc")); [reflexivity|]. cbn [orb]. repeat match goal with |- context [if eqb_list e ?x then _ else _] => destruct (eqb_list e x); [reflexivity|] end. reflexivity.
Qed.

Lemma described_iff e : described e <> None <-> In e (xex_ext :: supported_exts).
Proof.
  unfold described. destruct (find (fun p => eqb_list e (fst p)) descriptions) as [p|] eqn:F; cbn [option_map].
  - split; [intros _|discriminate]. apply find_some in F. destruct F as [F1 F2]. apply eqb_list_spec in F2. rewrite F2. clear F2 e.
    assert (X : forallb (fun p => existsb (eqb_list (fst p)) (xex_ext :: supported_exts)) descriptions = true) by (vm_compute; reflexivity).
    rewrite forallb_forall in X. specialize (X p F1). apply existsb_exists in X. destruct X as (y & Y1 & Y2). apply eqb_list_spec in Y2. now rewrite Y2.
  - split; [intros X; now destruct X|]. intros I. exfalso.
    assert (X : forallb (fun e => existsb (fun p => eqb_list e (fst p)) descriptions) (xex_ext :: supported_exts) = true) by (vm_compute; reflexivity).
    rewrite forallb_forall in X. specialize (X e I). apply existsb_exists in X. destruct X as (y & Y1 & Y2). pose proof (find_none _ _ F y Y1) as N. cbv beta in N. congruence.
Qed.

Lemma saved_described inf module exts e : api_get_save_exts inf module = Ok exts -> In e exts -> api_ext_description e <> None.
Proof.
  intros E I. destruct (save_exts_shape inf module exts E) as (xex & nat & N & S & _). apply S in I.
  assert (X : forallb (fun e => match api_ext_description e with Some _ => true | None => false end) (sap_ext :: xex_ext :: native_ext_list) = true) by (vm_compute; reflexivity).
  rewrite forallb_forall in X. assert (J : In e (sap_ext :: xex_ext :: native_ext_list)).
  { destruct I as [->|[[_ ->]|I]]; [now left|right; now left|]. right. right. rewrite I in N. exact (original_ext_range inf module e N). }
  specialize (X e J). destruct (api_ext_description e); [discriminate|discriminate X].
Qed.
