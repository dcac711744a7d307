(* GetSaveExts lists what Write accepts. *)
From Coq Require Import String.
From Verif Require Import Base BaseFacts InfoModel InfoSpec InfoProofs Loop NativeModel NativeSpec WriterModel FlashPackModel WriteModel SapSpec WindowSpec.
From Verif Require Import WriterProofs WindowProofs NameProofs SapWitness.

Definition native_ext_list : list (list Z) :=
  [str "dmc"; str "cmc"; str "cm3"; str "cmr"; str "cms"; str "dlt"; str "mpd"; str "mpt"; str "rmt"; str "tmc"; str "tm2"; str "fc"].

Lemma plain_b e : (match e with [a; b; c] => is_target a && is_target b && is_target c | [a; b] => is_target a && is_target b | _ => false end) = true -> plain_ext e.
Proof.
  intros H. destruct e as [|a [|b [|c [|]]]]; try discriminate.
  - right. exists a, b. apply andb_true_iff in H. tauto.
  - left. exists a, b, c. apply andb_true_iff in H. destruct H as [H H3]. apply andb_true_iff in H. tauto.
Qed.

Lemma original_ext_range inf module e : get_original_module_ext inf module = Ok (Some e) -> In e native_ext_list.
Proof.
  unfold get_original_module_ext. destruct (get_original_module_type inf module) as [t| | |]; cbn [bind]; try discriminate.
  intros H. injection H as H. unfold native_ext_list. destruct t; try discriminate; injection H as <-; try destruct (i_fastplay inf =? 156); cbn [In]; tauto.
Qed.

Lemma native_ext_facts e : In e native_ext_list -> plain_ext e /\ pack_ext e = packed_of e /\ e <> sap_ext /\ e <> xex_ext.
Proof.
  intros H. assert (F : forallb (fun e => (match e with [a; b; c] => is_target a && is_target b && is_target c | [a; b] => is_target a && is_target b | _ => false end)
     && (pack_ext e =? packed_of e) && negb (packed_of e =? packed_of sap_ext) && negb (packed_of e =? packed_of xex_ext)) native_ext_list = true) by (vm_compute; reflexivity).
  rewrite forallb_forall in F. specialize (F e H). cbn beta in F.
  apply andb_true_iff in F; destruct F as [F F4]. apply andb_true_iff in F; destruct F as [F F3]. apply andb_true_iff in F; destruct F as [F1 F2].
  split; [now apply plain_b|]. split; [lia|]. split; intros ->; [rewrite Z.eqb_refl in F3|rewrite Z.eqb_refl in F4]; discriminate.
Qed.

Lemma plain_sap : plain_ext sap_ext. Proof. apply plain_b. reflexivity. Qed.
Lemma plain_xex : plain_ext xex_ext. Proof. apply plain_b. reflexivity. Qed.
Lemma plain_tmc : plain_ext tmc_ext. Proof. apply plain_b. reflexivity. Qed.
Lemma plain_tm8 : plain_ext tm8_ext. Proof. apply plain_b. reflexivity. Qed.

Ltac nodup_tac :=
  cbn [app]; change [115; 97; 112] with sap_ext; change [120; 101; 120] with xex_ext;
  repeat (apply NoDup_cons; [cbn [In]; intuition congruence|]); apply NoDup_nil.

(* the shape of the list *)
Lemma save_exts_shape inf module exts : api_get_save_exts inf module = Ok exts ->
  exists xex nat, get_original_module_ext inf module = Ok nat
    /\ (forall e, In e exts <-> e = sap_ext \/ (xex = true /\ e = xex_ext) \/ nat = Some e)
    /\ (xex = false <-> i_type inf = SAP_S \/ (i_type inf = SAP_D /\ i_fastplay inf <> 312))
    /\ len exts <= 3 /\ NoDup exts.
Proof.
  unfold api_get_save_exts. intros H.
  assert (ND : forall e, In e native_ext_list -> e <> sap_ext /\ e <> xex_ext).
  { intros e He. destruct (native_ext_facts e He) as (_ & _ & A & C). auto. }
  assert (SX : sap_ext <> xex_ext) by discriminate.
  assert (O : forall n, get_original_module_ext inf module = Ok n -> forall e, n = Some e -> In e native_ext_list).
  { intros n Hn e ->. eapply original_ext_range; eassumption. }
  destruct (i_type inf) eqn:T.
  1,2: destruct (get_original_module_ext inf module) as [n| | |] eqn:E; cbn [bind] in H; try discriminate; injection H as <-;
    exists true, n; split; [reflexivity|];
    destruct n as [e|];
    [destruct (ND e (O _ eq_refl e eq_refl)) as [N1 N2]|];
    (split; [intros x; cbn [In app]; split; [intros K; repeat (destruct K as [K|K]; [rewrite <- K; auto|]); contradiction | intros [->|[[_ ->]| K]]; [now left|auto|try discriminate; injection K as ->; auto]]|]);
    (split; [split; [discriminate|intros [K|[K _]]; discriminate]|]);
    (split; [vm_compute; discriminate|]);
    nodup_tac.
  all: try (destruct (get_original_module_ext inf module) as [[e|]| | |] eqn:E; cbn [bind] in H; try discriminate; injection H as <-;
    exists true, (Some e); split; [reflexivity|];
    destruct (ND e (O _ eq_refl e eq_refl)) as [N1 N2];
    (split; [intros x; cbn [In app]; split; [intros K; repeat (destruct K as [K|K]; [rewrite <- K; auto|]); contradiction | intros [->|[[_ ->]| K]]; [auto|auto|injection K as ->; auto]]|]);
    (split; [split; [discriminate|intros [K|[K _]]; discriminate]|]);
    (split; [vm_compute; discriminate|]);
    nodup_tac).
  - assert (E : get_original_module_ext inf module = Ok None) by (unfold get_original_module_ext, get_original_module_type; rewrite T; reflexivity).
    destruct (Z.eqb_spec (i_fastplay inf) 312) as [F|F]; injection H as <-.
    + exists true, None. split; [exact E|]. split.
      { intros x. cbn [In]. split; [intros [<-|[<-|[]]]; auto|intros [->|[[_ ->]|K]]; auto; discriminate]. }
      split; [split; [discriminate|intros [K|[_ K]]; congruence]|]. split; [vm_compute; discriminate|].
      nodup_tac.
    + exists false, None. split; [exact E|]. split.
      { intros x. cbn [In]. split; [intros [<-|[]]; auto|intros [->|[[K _]|K]]; auto; discriminate]. }
      split; [split; [auto|reflexivity]|]. split; [vm_compute; discriminate|].
      nodup_tac.
  - assert (E : get_original_module_ext inf module = Ok None) by (unfold get_original_module_ext, get_original_module_type; rewrite T; reflexivity).
    injection H as <-.
    exists false, None. split; [exact E|]. split.
    { intros x. cbn [In]. split; [intros [<-|[]]; auto|intros [->|[[K _]|K]]; auto; discriminate]. }
    split; [split; [auto|reflexivity]|]. split; [vm_compute; discriminate|].
    nodup_tac.
Qed.

(* what each listed extension stands for *)
Lemma write_named_sap target inf module tag w : named target sap_ext -> api_write target inf module tag w = write_executable false inf module w.
Proof. intros H. apply (packed_named_iff target sap_ext plain_sap) in H. unfold api_write. rewrite H. reflexivity. Qed.

Lemma write_named_xex target inf module tag w : named target xex_ext ->
  api_write target inf module tag w =
  wseqs [ write_executable true inf module;
          wbind (exec_init_player inf module) (fun '(init, player) => write_xex_tail inf tag init player);
          fp_compress ] w.
Proof. intros H. apply (packed_named_iff target xex_ext plain_xex) in H. unfold api_write. rewrite H. reflexivity. Qed.

Lemma packed_eq e f : plain_ext e -> plain_ext f -> packed_of e = packed_of f -> e = f.
Proof.
  intros Pe Pf C.
  assert (N : named ([120; 46] ++ e) e).
  { exists [120], e. split; [reflexivity|]. split; [discriminate|].
    destruct Pe as [(x1 & x2 & x3 & -> & T1 & T2 & T3)|(x1 & x2 & -> & T1 & T2)]; cbn [map];
    assert (K : forall x, is_target x = true -> lower x = x) by (intros x; unfold is_target, lower; destruct ((65 <=? x) && (x <=? 90)) eqn:G; lia); now rewrite !K by assumption. }
  assert (M : named ([120; 46] ++ e) f).
  { apply (packed_named_iff _ f Pf). rewrite <- C. now apply (packed_named_iff _ e Pe). }
  exact (named_unique _ e f N M Pe Pf).
Qed.

Lemma write_native_named target inf module tag w e : get_original_module_ext inf module = Ok (Some e) ->
  named target e \/ (e = tmc_ext /\ named target tm8_ext) -> api_write target inf module tag w = write_native inf module w.
Proof.
  intros E H. destruct (native_ext_facts e (original_ext_range _ _ _ E)) as (Pe & Pk & N1 & N2).
  unfold api_write. rewrite E. cbn [bind].
  assert (G : get_packed_ext target = packed_of e \/ (e = tmc_ext /\ get_packed_ext target = packed_of tm8_ext)).
  { destruct H as [H|[-> H]]; [left|right; split; [reflexivity|]]; apply packed_named_iff; auto using plain_tm8. }
  assert (K : get_packed_ext target <> 7364979 /\ get_packed_ext target <> 7890296).
  { destruct G as [->|[_ ->]]; [|split; vm_compute; discriminate].
    split; intros C; [apply N1|apply N2]; (apply packed_eq; [exact Pe|apply plain_sap || apply plain_xex|exact C]). }
  replace (get_packed_ext target =? 7364979) with false by lia. replace (get_packed_ext target =? 7890296) with false by lia.
  rewrite Pk. destruct G as [->|[-> ->]]; [now rewrite Z.eqb_refl|reflexivity].
Qed.

Lemma listed_dispatch inf module exts target tag w e : api_get_save_exts inf module = Ok exts -> In e exts -> named target e ->
  (e = sap_ext -> api_write target inf module tag w = write_executable false inf module w)
  /\ (e = xex_ext -> api_write target inf module tag w =
       wseqs [ write_executable true inf module;
               wbind (exec_init_player inf module) (fun '(init, player) => write_xex_tail inf tag init player);
               fp_compress ] w)
  /\ (e <> sap_ext -> e <> xex_ext -> api_write target inf module tag w = write_native inf module w).
Proof.
  intros H I N. destruct (save_exts_shape _ _ _ H) as (xex & nat & E & L & _).
  split; [intros ->; now apply write_named_sap|]. split; [intros ->; now apply write_named_xex|].
  intros N1 N2. apply L in I. destruct I as [->|[[_ ->]| ->]]; try congruence.
  apply (write_native_named target inf module tag w e E). now left.
Qed.

Lemma alias_dispatch inf module exts target tag w : api_get_save_exts inf module = Ok exts -> In tmc_ext exts -> named target tm8_ext ->
  api_write target inf module tag w = write_native inf module w.
Proof.
  intros H I N. destruct (save_exts_shape _ _ _ H) as (xex & nat & E & L & _).
  apply L in I. destruct I as [I|[[_ I]| ->]]; try discriminate.
  apply (write_native_named target inf module tag w tmc_ext E). right. auto.
Qed.

Lemma xex_never inf module target tag w : named target xex_ext ->
  i_type inf = SAP_S \/ (i_type inf = SAP_D /\ i_fastplay inf <> 312) -> not_saved (api_write target inf module tag w).
Proof.
  intros N T w'. rewrite (write_named_xex _ _ _ _ _ N). cbn [wseqs]. unfold wseq at 1.
  destruct (write_executable true inf module w) as [[b w1]| | |]; cbn [bind]; try discriminate.
  destruct b; [|discriminate]. unfold wseq at 1. unfold wbind at 1.
  destruct (exec_init_player inf module) as [[i p]| | |]; cbn [bind]; try discriminate.
  unfold write_xex_tail. cbn [wseqs]. unfold wseq at 1. destruct T as [->|[-> F]].
  - discriminate.
  - replace (i_fastplay inf =? 312) with false by lia. discriminate.
Qed.

Lemma unlisted_refused inf module exts target tag w : api_get_save_exts inf module = Ok exts ->
  (forall e, In e exts \/ also_listed exts e -> ~ named target e) ->
  not_saved (api_write target inf module tag w)
  /\ (~ named target xex_ext -> refused (api_write target inf module tag w) w).
Proof.
  intros H U. destruct (save_exts_shape _ _ _ H) as (xex & nat & E & L & X & _).
  assert (NS : get_packed_ext target <> 7364979).
  { intros C. apply (U sap_ext); [left; apply L; now left|]. now apply (packed_named_iff target sap_ext plain_sap). }
  assert (R : get_packed_ext target <> 7890296 -> api_write target inf module tag w = Ok (false, w)).
  { intros NX. unfold api_write. replace (get_packed_ext target =? 7364979) with false by lia.
    replace (get_packed_ext target =? 7890296) with false by lia. rewrite E. cbn [bind].
    destruct nat as [e|]; [|reflexivity].
    destruct (native_ext_facts e (original_ext_range _ _ _ E)) as (Pe & Pk & N1 & N2). rewrite Pk.
    replace (get_packed_ext target =? packed_of e) with false.
    2:{ symmetry. apply Z.eqb_neq. intros C. apply (U e); [left; apply L; auto|]. now apply (packed_named_iff target e Pe). }
    cbn [orb]. destruct ((get_packed_ext target =? 3698036) && (packed_of e =? 6516084)) eqn:C; [|reflexivity].
    apply andb_true_iff in C. exfalso.
    assert (e = tmc_ext) by (apply packed_eq; [exact Pe|apply plain_tmc|change (packed_of tmc_ext) with 6516084; lia]). subst e.
    apply (U tm8_ext); [right; split; [reflexivity|apply L; auto]|].
    apply (packed_named_iff target tm8_ext plain_tm8). change (packed_of tm8_ext) with 3698036. lia. }
  split.
  - destruct (Z.eq_dec (get_packed_ext target) 7890296) as [C|C].
    + assert (N : named target xex_ext) by (now apply (packed_named_iff target xex_ext plain_xex)).
      apply xex_never; [exact N|]. apply X. destruct xex; [|reflexivity]. exfalso. apply (U xex_ext); [left; apply L; auto|exact N].
    + rewrite R by exact C. intros w'. discriminate.
  - intros N. apply R. intros C. apply N. now apply (packed_named_iff target xex_ext plain_xex).
Qed.

Lemma get_word_ok l i : 0 <= i -> i + 1 < len l -> get_word l i = Ok (file_word l i).
Proof.
  intros H1 H2. unfold get_word. rewrite !get_ok by lia. cbn [bind]. rewrite Z.shiftl_mul_pow2 by lia. unfold file_word.
  change (2 ^ 8) with 256. f_equal. lia.
Qed.

(* reading past the module is limited to one situation *)
Lemma save_exts_defined inf module : 0 <= i_headerLen inf -> i_headerLen inf + 6 < len module -> bytes module ->
  (i_player inf <> 13315 \/ file_word module (i_headerLen inf + 2) <= file_word module (i_headerLen inf + 4)) ->
  exists exts, api_get_save_exts inf module = Ok exts.
Proof.
  intros H0 H6 HB HP.
  assert (R : exists o, get_rmt_sap_offset inf module = Ok o).
  { unfold get_rmt_sap_offset. destruct (Z.eqb_spec (i_player inf) 13315) as [P|P]; cbn [negb]; [|eauto].
    destruct HP as [HP|HP]; [congruence|].
    rewrite !get_word_ok by lia. cbn [bind]. cbv zeta.
    match goal with |- context [if ?b then _ else _] => destruct b eqn:C; [eauto|] end.
    apply Z.leb_gt in C. change (str "RMT") with [82; 77; 84]. cbn [has_string_at].
    rewrite get_ok by lia. cbn [bind]. destruct (negb _); [cbn [bind]; eauto|].
    rewrite get_ok by lia. cbn [bind]. destruct (negb _); [cbn [bind]; eauto|].
    rewrite get_ok by lia. cbn [bind]. destruct (negb _); cbn [bind]; eauto. }
  destruct R as [o R].
  assert (T : exists t, get_original_module_type inf module = Ok t).
  { unfold get_original_module_type. rewrite R. cbv zeta. destruct (i_type inf); eauto.
    - destruct (_ && _); [eauto|]. destruct (_ || _); [eauto|].
      destruct (i_init inf =? 3200); cbn [bind].
      + eauto.
      + destruct (0 <? o); [eauto|].
        repeat match goal with |- context [if ?b then _ else _] => destruct b; [eauto|] end. eauto.
    - match goal with |- context [if ?b then _ else _] => destruct b eqn:C end; [|eauto].
      apply andb_true_iff in C. destruct C as [_ C]. destruct (1 <? i_channels inf); [eauto|].
      rewrite get_ok by lia. cbn [bind]. match goal with |- context [if ?b then _ else _] => destruct b end; [eauto|].
      rewrite get_ok by lia. cbn [bind]. eauto. }
  destruct T as [t T].
  unfold api_get_save_exts, get_original_module_ext. rewrite T. cbn [bind].
  unfold get_original_module_type in T.
  destruct (i_type inf); eauto; injection T as <-; eauto.
Qed.

Lemma listed_formats inf module exts : api_get_save_exts inf module = Ok exts ->
  len exts <= 3 /\ NoDup exts /\ In sap_ext exts
  /\ (In xex_ext exts <-> ~ (i_type inf = SAP_S \/ (i_type inf = SAP_D /\ i_fastplay inf <> 312))).
Proof.
  intros H. destruct (save_exts_shape _ _ _ H) as (xex & nat & E & L & X & N & D).
  split; [exact N|]. split; [exact D|]. split; [apply L; now left|]. rewrite L, <- X. split.
  - intros [K|[[-> _]|K]]; [discriminate|discriminate|]. rewrite K in E.
    destruct (native_ext_facts _ (original_ext_range _ _ _ E)) as (_ & _ & _ & C). congruence.
  - intros K. right. left. split; [|reflexivity]. destruct xex; [reflexivity|]. exfalso. now apply K.
Qed.

Lemma window_named target inf module tag w : wf w -> ~ named target xex_ext ->
  match api_write target inf module tag w with
  | Ok (_, w') => only_inside (w_off w) (w_end w) (w_out w) (w_out w') /\ w_off w <= w_off w' <= w_end w
  | UB r => r = UbRead \/ r = UbNegSize
  | _ => True
  end.
Proof. intros W N. apply write_window; [exact W|]. intros C. apply N. now apply (packed_named_iff target xex_ext plain_xex). Qed.

Lemma xex_window_named target inf module tag w b w' : wf w -> named target xex_ext -> api_write target inf module tag w = Ok (b, w') ->
  only_inside 0 (w_end w) (w_out w) (w_out w') /\ 0 <= w_off w' <= w_end w
  /\ (b = true -> at_ (w_out w') 0 = 255 /\ at_ (w_out w') 1 = 255 /\ 100 < w_off w').
Proof. intros W N. apply xex_window; [exact W|]. now apply (packed_named_iff target xex_ext plain_xex). Qed.
