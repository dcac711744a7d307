(* Load as called through the API, for native modules. *)
From Coq Require Import String.
From Verif Require Import Base BaseFacts InfoModel InfoSpec Loop NativeModel NativeSpec SapSpec.
From Verif Require Import InfoProofs SapProofs SapWitness SapLoadProofs NativeProofs NativeProofs2 NativeProofs3 NativeFuel NativeWitness.

Lemma load_named fuel self name ext module : named name ext -> In ext supported_exts ->
  exists n, api_load fuel self (Some name) module = load_packed fuel (packed_of ext) (load_defaults (set_filename n self)) module.
Proof.
  intros H Hin. destruct (named_load_filename _ _ H Hin) as [n E]. exists n. unfold api_load. rewrite E. cbn [bind].
  rewrite (named_packed _ _ H Hin). reflexivity.
Qed.

(* what the parsers promise, as native_loaded *)
Lemma prog_loaded b s D L P : songs_ok s D L P -> i_defsong b = 0 -> i_author b = [] -> i_date b = [] -> meta_text (i_title b) ->
  1 <= i_channels b <= 2 -> i_ntsc b = false -> In (i_fastplay b) [312; 156; 104; 78] -> 0 <= i_music b <= 65535 ->
  i_init b = -1 -> i_covox b = -1 -> native_loaded (prog b s D L P).
Proof. intros [H1 H2 H3 H4]. intros. constructor; cbn [prog i_songs i_defsong i_author i_date i_title i_channels i_ntsc i_fastplay i_music i_init i_covox i_durations i_loops i_songPos]; assumption. Qed.

Definition load_post (ext : list Z) (inf : info) : Prop :=
  native_loaded inf /\ native_type ext (i_type inf) /\ (ext = fc_ext \/ 1 <= i_songs inf).

(* the shortest file of a type *)
Definition shortest (t : module_type) : Z :=
  match t with CMC | CM3 | CMR | CMS => 774 | DLT => 11270 | MPT | TMC => 464 | RMT => 48 | TM2 => 932 | _ => 0 end.
(* two calls of the player per frame *)
Definition double_rate (ext : list Z) : bool := eqb_list ext [100; 109; 99] || eqb_list ext [109; 112; 100]. (* dmc mpd *)
Definition file_post (ext module : list Z) (inf : info) : Prop :=
  load_post ext inf /\ ((ext = fc_ext /\ i_music inf = 2560) \/ (ext <> fc_ext /\ i_music inf = word_at module 2 /\ shortest (i_type inf) <= len module))
  /\ (i_type inf = CMC \/ i_type inf = MPT -> i_fastplay inf = if double_rate ext then 156 else 312).

Lemma meta_nil : meta_text [].
Proof. split; [cbn; lia|constructor]. Qed.

Lemma in_first {A} (a : A) l : In a (a :: l). Proof. left. reflexivity. Qed.

Ltac cases H := cbn [In] in H; repeat (destruct H as [H|H]); try contradiction H; subst.

Ltac type_tac := unfold native_type, cms_ext, dlt_ext, mpt_exts, rmt_ext, tmc_exts, tm2_ext, fc_ext; cbn [In]; tauto.

Section Load.
Variable self : info.
Variable module : list Z.
Hypothesis Hb : bytes module.
Hypothesis Hpos : len (i_songPos self) = 32.

Ltac loaded_tac := split; [apply prog_loaded; try assumption; try reflexivity; cbn [prog load_defaults set_filename set_channels set_fastplay set_type set_music set_title set_player set_headerLen i_title i_channels i_fastplay i_music];
   first [assumption|apply meta_nil|lia|cbn [In]; tauto|idtac] | split; [cbn [prog i_type set_type set_music set_title set_fastplay set_channels set_player set_headerLen]; type_tac|]].

Variable B : ub_reason -> Prop.
Variable F : Prop.
Variable ext : list Z.
Hypothesis HFB : F -> B UbOverflow.
Hypothesis Hext : In ext native_exts.
Hypothesis Hovf : In ext cmc_exts \/ ext = cms_ext \/ ext = dlt_ext \/ B UbOverflow.
Hypothesis Hread : In ext cmc_exts \/ (ext = cms_ext /\ 1028 <= len module) \/ ext = dlt_ext \/ ext = fc_ext \/ B UbRead.
Hypothesis Hrmt : ext = rmt_ext -> forall i, 0 <= i < len module -> at_ module i = 191 -> F.
Hypothesis Hcmc : In ext cmc_exts -> forall p, cmc_repeat_line false module p -> F.
Hypothesis Hcms : ext = cms_ext -> forall p, cmc_repeat_line true module p -> F.
Variable fuel : nat.
Hypothesis Hfuel : 60000 * (len module + 1) <= Z.of_nat fuel.

Lemma get_ovf : ~ In ext cmc_exts -> ext <> cms_ext -> ext <> dlt_ext -> B UbOverflow.
Proof. clear Hread. tauto. Qed.

Lemma get_read : ~ In ext cmc_exts -> ext <> cms_ext -> ext <> dlt_ext -> ext <> fc_ext -> B UbRead.
Proof. clear Hovf. tauto. Qed.

Ltac not_in := let H := fresh in intro H; cbn [In cmc_exts] in H; repeat (destruct H as [H|H]; [discriminate H|]); exact H.

Lemma load_file_wpg n : wpg B F (load_packed fuel (packed_of ext) (load_defaults (set_filename n self)) module) (file_post ext module).
Proof.
  pose proof (len_nonneg module) as Hlen. unfold native_exts in Hext.
  pose proof get_ovf as GO. pose proof get_read as GR. clear Hovf.
  cbn [cmc_exts mpt_exts tmc_exts app In] in Hext.
  repeat (destruct Hext as [E|Hext']; [|clear Hext; rename Hext' into Hext]); try contradiction; 
  match goal with E : _ = ext |- _ => destruct E end;
  match goal with |- context [load_packed fuel ?p] => let v := eval vm_compute in p in change p with v end;
  unfold load_packed; repeat match goal with |- context [?a =? ?b] => let v := eval vm_compute in (a =? b) in change (a =? b) with v end; cbv iota; cbn [orb].
  all: try (assert (Bovf : B UbOverflow) by (apply GO; [not_in|discriminate|discriminate])).
  all: try (assert (Bread : B UbRead) by (apply GR; [not_in|discriminate|discriminate|discriminate])).
  all: clear GO GR.
  all: match goal with
  | |- wpg _ _ (parse_cmc _ _ _ _) _ => apply parse_cmc_wpg; try assumption; try reflexivity; try discriminate
  | |- wpg _ _ (parse_dlt _ _ _) _ => apply parse_dlt_wpg; try assumption; try reflexivity
  | |- wpg _ _ (parse_mpt _ _ _) _ => apply parse_mpt_wpg; try assumption; try reflexivity
  | |- wpg _ _ (parse_rmt _ _ _) _ => apply parse_rmt_wpg; try assumption; try reflexivity
  | |- wpg _ _ (parse_tmc _ _ _) _ => apply parse_tmc_wpg; try assumption; try reflexivity
  | |- wpg _ _ (parse_tm2 _ _ _) _ => apply parse_tm2_wpg; try assumption; try reflexivity
  | |- wpg _ _ (parse_fc _ _ _) _ => apply parse_fc_wpg; try assumption; try reflexivity
  end.
  all: try (cbn [load_defaults set_filename set_fastplay set_channels i_fastplay i_channels]; lia).
  all: try solve [apply Hcmc; cbn [In cmc_exts]; tauto].
  all: try solve [apply Hcms; reflexivity].
  all: try solve [apply Hrmt; reflexivity].
  all: try solve [intros; split; [loaded_tac; solve [right; assumption|left; reflexivity]|
    split; [first [left; split; reflexivity | right; split; [discriminate|]; cbn [prog i_type i_music set_type set_music set_title set_fastplay set_channels set_player set_headerLen shortest]; assumption]
    | first [intros _; reflexivity | intros [HH|HH]; discriminate HH]]]].
  all: try solve [cbn [load_defaults set_filename set_fastplay set_channels i_channels]; left; discriminate].
  right. destruct Hread as [H|[[_ H]|[H|[H|H]]]]; [exfalso; revert H; not_in|now left|discriminate|discriminate|now right].
Qed.

Lemma load_packed_wpg n : wpg B F (load_packed fuel (packed_of ext) (load_defaults (set_filename n self)) module) (load_post ext).
Proof. eapply wpg_mono; [apply load_file_wpg|]. now intros inf [H _]. Qed.
End Load.

Lemma native_supported ext : In ext native_exts -> In ext supported_exts.
Proof.
  intros H. assert (E : forallb (fun e => existsb (eqb_list e) supported_exts) native_exts = true) by reflexivity.
  rewrite forallb_forall in E. specialize (E _ H). rewrite existsb_exists in E. destruct E as (x & Hx & E). apply eqb_list_spec in E. now subst.
Qed.

Lemma supported_split ext : In ext supported_exts -> ext = sap_ext \/ In ext native_exts.
Proof.
  intros H. assert (E : forallb (fun e => eqb_list e sap_ext || existsb (eqb_list e) native_exts) supported_exts = true) by reflexivity.
  rewrite forallb_forall in E. specialize (E _ H). apply orb_true_iff in E. destruct E as [E|E]; [left; now apply eqb_list_spec|].
  right. rewrite existsb_exists in E. destruct E as (x & Hx & E). apply eqb_list_spec in E. now subst.
Qed.

(* enough fuel, or the same result with enough fuel *)
Definition plenty (fuel : nat) (module : list Z) : nat := Nat.max fuel (Z.to_nat (60000 * (len module + 1))).

Lemma plenty_enough fuel module : 60000 * (len module + 1) <= Z.of_nat (plenty fuel module).
Proof. pose proof (len_nonneg module). unfold plenty. lia. Qed.

Lemma api_load_any_fuel B fuel self name module P :
  wpg B True (api_load (plenty fuel module) self name module) P -> wpg B True (api_load fuel self name module) P.
Proof.
  intros H. destruct (api_load_fle fuel (plenty fuel module) ltac:(unfold plenty; lia) self name module) as [-> | ->]; [exact I|exact H].
Qed.

Lemma in_bounds_wpg {A} (m : outcome A) : wpg only_ovf True m (fun _ => True) -> in_bounds m.
Proof. destruct m as [a| |r|]; cbn; auto. intros ->. exact I. Qed.

Lemma no_bad_write_wpg {A} (m : outcome A) : wpg ovf_or_read True m (fun _ => True) -> no_bad_write m.
Proof. destruct m as [a| |r|]; cbn; auto. intros [-> | ->]; exact I. Qed.

Lemma cmc_native ext : In ext cmc_exts -> In ext native_exts.
Proof. intros H. unfold native_exts. apply in_or_app. now left. Qed.

Lemma load_in_bounds fuel self name ext module : In ext native_exts -> named name ext -> bytes module -> len (i_songPos self) = 32 ->
  (In ext cmc_exts \/ (ext = cms_ext /\ 1028 <= len module) \/ ext = dlt_ext \/ ext = fc_ext) ->
  in_bounds (api_load fuel self (Some name) module).
Proof.
  intros Hin Hn Hb Hp H. apply in_bounds_wpg, api_load_any_fuel.
  destruct (load_named (plenty fuel module) self name ext module Hn (native_supported _ Hin)) as [n ->].
  eapply wpg_mono; [apply load_packed_wpg with (ext := ext); try assumption; try (intros; exact I)|intros; exact I].
  - reflexivity.
  - right. right. right. reflexivity.
  - tauto.
  - apply plenty_enough.
Qed.

Lemma cmc_in_bounds fuel self name ext module : In ext cmc_exts -> named name ext -> bytes module -> len (i_songPos self) = 32 ->
  in_bounds (api_load fuel self (Some name) module).
Proof. intros H H1 H2 H3. apply load_in_bounds with ext; auto using cmc_native. Qed.

Lemma cms_in_bounds fuel self name module : named name cms_ext -> bytes module -> len (i_songPos self) = 32 -> 1028 <= len module ->
  in_bounds (api_load fuel self (Some name) module).
Proof. intros H1 H2 H3 H4. apply load_in_bounds with cms_ext; auto; cbn; tauto. Qed.

Lemma dlt_in_bounds fuel self name module : named name dlt_ext -> bytes module -> len (i_songPos self) = 32 ->
  in_bounds (api_load fuel self (Some name) module).
Proof. intros H1 H2 H3. apply load_in_bounds with dlt_ext; auto; cbn; tauto. Qed.

Lemma fc_in_bounds fuel self name module : named name fc_ext -> bytes module -> len (i_songPos self) = 32 ->
  in_bounds (api_load fuel self (Some name) module).
Proof. intros H1 H2 H3. apply load_in_bounds with fc_ext; auto; cbn; tauto. Qed.

(* any file name *)
Lemma guess_wp module (P : Z -> Prop) : P (packed_of sap_ext) -> P (packed_of fc_ext) -> P (packed_of rmt_ext) -> wp (guess_packed_ext module) P.
Proof.
  intros P1 P2 P3. unfold guess_packed_ext, validate_sap, validate_fc. apply wp_bind.
  assert (K1 : wp (f <- (if len module <? 899 then Ok false else a <- get module 0 ;; if negb (a =? 38) then Ok false else b <- get module 1 ;; Ok (b =? 35)) ;;
     if f : bool then Ok 2122598 else r <- validate_rmt module ;; if r : bool then Ok 7630194 else Fail) P).
  { apply wp_bind.
    assert (K2 : wp (r <- validate_rmt module ;; if r : bool then Ok 7630194 else Fail) P).
    { apply wp_bind. unfold validate_rmt. destruct (Z.ltb_spec (len module) 48); [exact I|]. apply wp_bind, has_string_at_wp; [lia|change (len (str "RMT")) with 3; lia|].
      intros [|]; [|exact I]. apply wp_bind, wp_get; [lia|]. cbn [wp]. destruct (_ =? 1); [exact P3|exact I]. }
    destruct (Z.ltb_spec (len module) 899); [exact K2|]. apply wp_bind, wp_get; [lia|]. destruct (negb _); [exact K2|].
    apply wp_bind, wp_get; [lia|]. cbn [wp]. destruct (_ =? 35); [exact P2|exact K2]. }
  destruct (Z.leb_spec 30 (len module)); [|exact K1].
  apply has_string_at_wp; [lia|change (len (str "SAP" ++ [13; 10])) with 5; lia|]. intros [|]; [exact P1|exact K1].
Qed.

Definition any_post (module : list Z) (inf : info) : Prop := sap_loaded module inf \/ exists ext, In ext native_exts /\ load_post ext inf.

Lemma load_packed_any (B : ub_reason -> Prop) fuel self n ext module : B UbOverflow -> B UbRead -> bytes module -> len (i_songPos self) = 32 -> 60000 * (len module + 1) <= Z.of_nat fuel ->
  wpg B True (load_packed fuel ext (load_defaults (set_filename n self)) module) (any_post module).
Proof.
  intros B1 B2 Hb Hp Hf.
  destruct (in_dec Z.eq_dec ext (map packed_of supported_exts)) as [H|H].
  - apply in_map_iff in H. destruct H as (e & <- & He). destruct (supported_split _ He) as [-> |Hn].
    + apply wp_wpg. unfold load_packed. change (packed_of sap_ext =? 7364979) with true. cbv iota. apply parse_sap_wp; [assumption|]. intros. now left.
    + eapply wpg_mono; [apply load_packed_wpg with (ext := e); try assumption; auto|]. 
      intros a Ha. right. eauto.
  - unfold load_packed.
    repeat match goal with |- wpg _ _ (if ?c then _ else _) _ => destruct c eqn:? end; try exact I;
    exfalso; apply H;
    repeat match goal with E : (?a || ?b) = true |- _ => apply orb_true_iff in E; destruct E as [E|E] end;
    match goal with E : (ext =? ?v) = true |- _ => apply Z.eqb_eq in E; rewrite E; vm_compute; tauto end.
Qed.

Lemma load_any (B : ub_reason -> Prop) fuel self name module : B UbOverflow -> B UbRead -> bytes module -> len (i_songPos self) = 32 -> 60000 * (len module + 1) <= Z.of_nat fuel ->
  wpg B True (api_load fuel self name module) (any_post module).
Proof.
  intros B1 B2 Hb Hp Hf. unfold api_load. apply wpg_bind. destruct name as [name|].
  - apply wpg_bind, wp_wpg. eapply wp_mono; [apply load_filename_wp|]. intros n _. cbn [wpg]. now apply load_packed_any.
  - apply wpg_bind, wp_wpg. apply guess_wp; cbn [wpg]; now apply load_packed_any.
Qed.

Lemma no_bad_writes fuel self name module : bytes module -> len (i_songPos self) = 32 -> no_bad_write (api_load fuel self name module).
Proof.
  intros Hb Hp. apply no_bad_write_wpg, api_load_any_fuel. eapply wpg_mono; [apply load_any; try assumption|intros; exact I].
  - now left.
  - now right.
  - apply plenty_enough.
Qed.

Lemma api_load_result fuel self name module inf : bytes module -> len (i_songPos self) = 32 ->
  api_load fuel self name module = Ok inf -> any_post module inf.
Proof.
  intros Hb Hp E. eapply (wpg_ok (fun _ => True) True); [|exact E]. apply api_load_any_fuel, load_any; try exact I; try assumption. apply plenty_enough.
Qed.

(* ---- termination ---- *)
Lemma bytes_no_191 module : ~ In 191 module -> forall i, 0 <= i < len module -> at_ module i = 191 -> False.
Proof. intros H i Hi E. apply H. rewrite <- E. unfold at_. apply nth_In. unfold len in Hi. lia. Qed.

Lemma load_terminates fuel self name ext module : In ext supported_exts -> named name ext -> bytes module -> len (i_songPos self) = 32 ->
  no_endless_commands ext module -> 60000 * (len module + 1) <= Z.of_nat fuel -> api_load fuel self (Some name) module <> OutOfFuel.
Proof.
  intros Hin Hn Hb Hp (N1 & N2 & N3) Hf E.
  assert (W : wpg (fun _ => True) False (api_load fuel self (Some name) module) (fun _ => True)); [|now rewrite E in W].
  destruct (load_named fuel self name ext module Hn Hin) as [n ->].
  destruct (supported_split _ Hin) as [-> |Hx].
  - apply wp_wpg. unfold load_packed. change (packed_of sap_ext =? 7364979) with true. cbv iota. now apply parse_sap_wp.
  - eapply wpg_mono; [apply load_packed_wpg with (ext := ext); try assumption; auto|intros; exact I].
    + intros H. apply bytes_no_191; auto.
Qed.

Lemma fuel_independent n m self name module : (n <= m)%nat -> api_load n self name module <> OutOfFuel ->
  api_load m self name module = api_load n self name module.
Proof. intros H H1. destruct (api_load_fle n m H self name module) as [E|E]; [exfalso; exact (H1 E)|symmetry; exact E]. Qed.

(* ---- durations without overflow ---- *)
Lemma load_defined fuel self name ext module : In ext cmc_exts \/ (ext = cms_ext /\ 1028 <= len module) \/ ext = dlt_ext ->
  named name ext -> bytes module -> len (i_songPos self) = 32 ->
  no_endless_commands ext module -> 60000 * (len module + 1) <= Z.of_nat fuel -> defined (api_load fuel self (Some name) module).
Proof.
  intros Hx Hn Hb Hp (N1 & N2 & N3) Hf.
  assert (Hin : In ext native_exts) by (destruct Hx as [H|[[-> _]| ->]]; [now apply cmc_native|cbn; tauto|cbn; tauto]).
  assert (W : wp (api_load fuel self (Some name) module) (fun _ => True)).
  { apply wpg_wp. destruct (load_named fuel self name ext module Hn (native_supported _ Hin)) as [n ->].
    eapply wpg_mono; [apply load_packed_wpg with (ext := ext); try assumption; auto|intros; exact I].
    - destruct Hx as [?|[[? _]|?]]; auto.
    - destruct Hx as [?|[?|?]]; auto.
    - intros H. apply bytes_no_191; auto. }
  destruct (api_load fuel self (Some name) module); auto.
Qed.

(* ---- what a successful load means ---- *)
Lemma native_load_result fuel self name ext module inf : In ext native_exts -> named name ext -> bytes module -> len (i_songPos self) = 32 ->
  api_load fuel self (Some name) module = Ok inf -> load_post ext inf.
Proof.
  intros Hin Hn Hb Hp E. eapply (wpg_ok (fun _ => True) True); [|exact E]. apply api_load_any_fuel.
  destruct (load_named (plenty fuel module) self name ext module Hn (native_supported _ Hin)) as [n ->].
  apply load_packed_wpg with (ext := ext); try assumption; auto. apply plenty_enough.
Qed.

Lemma native_file_result fuel self name ext module inf : In ext native_exts -> named name ext -> bytes module -> len (i_songPos self) = 32 ->
  api_load fuel self (Some name) module = Ok inf -> file_post ext module inf.
Proof.
  intros Hin Hn Hb Hp E. eapply (wpg_ok (fun _ => True) True); [|exact E]. apply api_load_any_fuel.
  destruct (load_named (plenty fuel module) self name ext module Hn (native_supported _ Hin)) as [n ->].
  apply load_file_wpg; try assumption; auto. apply plenty_enough.
Qed.
