(* The SAP file made from a native module: it initialises and calls the player like the native module *)
From Coq Require Import String.
From Verif Require Import Base BaseFacts Loop MemModel InfoModel InfoSpec InfoProofs NativeModel WindowSpec NativeSpec NativeProofs NativeProofs2 NativeProofs3 NativeFuel NativeWitness NativeLoadProofs WriterModel WriteModel WriterProofs SapSpec SapWriteProofs SapLoadProofs FlashFile SaveProofs Resources
  FlashSpec LoadSpec MoveSpec PokeyModel MachineModel PlayModel LoadProofs CpuSpec CpuProofs CpuFacts CallSpec CallProofs ExportSpec ExportStub ExportProofs ExportLoad.

Lemma saved fuel self name ext f inf inf2 g : exported fuel self name ext f inf inf2 g -> faithful ext f inf inf2 ->
  forall fuel' s name', named name' sap_ext -> len (i_songPos (m_info s)) = 32 ->
  exists s', asap_load fuel' (Some name') g s = Ok s' /\ sap_same (info_of f inf2) (m_info s') /\
    forall a, 0 <= a < 65536 -> ld (m_memory s') a = load (fun _ => 0) (export_blocks inf2 ext f) a.
Proof.
  intros HE HF fuel' s name' Hn' Hp'. destruct (export_ready _ _ _ _ _ _ _ _ HE HF) as [R HX]. destruct HE as [Hin Hn Hb Hp E Hed (out & tag & w & w' & Ho & Hw & Ew & ->)].
  destruct (blocks_ok _ _ _ R) as [B1 B2]. destruct HF.
  exact (export_loads _ _ _ inf2 f _ out tag w w' HX fa_author fa_title fa_date fa_durations (ready_emits _ _ _ R HX) B1 B2 Ho Hw Ew fuel' s name' Hn' Hp').
Qed.

Lemma saved_tune fuel self name ext f inf inf2 g : exported fuel self name ext f inf inf2 g -> faithful ext f inf inf2 ->
  forall fuel' s name', named name' sap_ext -> len (i_songPos (m_info s)) = 32 ->
  exists s', asap_load fuel' (Some name') g s = Ok s' /\ same_tune inf2 (m_info s') /\ i_type (m_info s') = sap_type_of (i_type inf) /\
    (sap_type_of (i_type inf) = SAP_C -> i_music (m_info s') = i_music inf).
Proof.
  intros HE HF fuel' s name' Hn' Hp'. destruct (saved _ _ _ _ _ _ _ _ HE HF fuel' s name' Hn' Hp') as (s' & E' & S & _). exists s'. split; [exact E'|].
  assert (KT := edited_keeps _ _ (ex_edited _ _ _ _ _ _ _ _ HE)). destruct KT as (KT & _).
  assert (TY : export_type (i_type inf2) = sap_type_of (i_type inf)) by (rewrite KT; destruct (i_type inf); reflexivity).
  destruct S. split; [split; assumption|]. split; [rewrite ss_module_type; exact TY|]. intros C. rewrite ss_music by (rewrite <- C; exact TY). exact (fa_music _ _ _ _ HF).
Qed.

(* the memory of the loaded file, and that of the native module loaded into cleared memory *)
Lemma saved_memory fuel name ext f inf inf2 g s0 s1 : exported fuel (m_info s0) name ext f inf inf2 g -> faithful ext f inf inf2 ->
  asap_load fuel (Some name) f s0 = Ok s1 -> (forall a, 0 <= a < 65536 -> ld (m_memory s0) a = 0) ->
  forall fuel' s name', named name' sap_ext -> len (i_songPos (m_info s)) = 32 ->
  exists s', asap_load fuel' (Some name') g s = Ok s' /\
    forall a, 0 <= a < 65536 -> ~ stub_lo (i_type inf) <= a < stub_hi (i_type inf) (i_songs inf) -> (i_type inf = RMT -> a <= file_word f 4) ->
      ld (m_memory s') a = ld (m_memory s1) a.
Proof.
  intros HE HF E1 Z0 fuel' s name' Hn' Hp'. destruct (saved _ _ _ _ _ _ _ _ HE HF fuel' s name' Hn' Hp') as (s' & E' & _ & M). exists s'. split; [exact E'|].
  destruct (export_ready _ _ _ _ _ _ _ _ HE HF) as [R _]. destruct HE as [Hin Hn Hb Hp E Hed _].
  destruct (edited_keeps _ _ Hed) as (KT & KC & KS & KP & KV).
  destruct (native_load_eq _ _ _ _ _ _ Hin Hn Hb Hp E) as (_ & _ & _ & _ & _ & EQ).
  assert (TI : i_type (m_info s1) = i_type inf /\ i_channels (m_info s1) = i_channels inf).
  { rewrite EQ in E1. destruct (_ <=? _) in E1; [discriminate E1|]. destruct (_ <=? _) in E1; [|discriminate E1]. injection E1 as <-.
    cbn [m_info set_m_memory set_m_info]. unfold loaded_info. destruct (i_player inf <? 0); split; reflexivity. }
  destruct TI as [TI CI]. pose proof (native_memory _ _ _ _ _ _ Hin Hn Hb Hp E1) as (N1 & N2 & N3 & N4 & N5). cbv zeta in *. rewrite TI, CI in *.
  destruct (export_memory ext f inf2 (ld (m_memory s')) R M) as (_ & X2 & X3 & X4). rewrite KT, KC, KS in *. clear M.
  pose proof (code_facts _ _ _ R) as (C0 & C1 & C2 & _). cbv zeta in *. rewrite KT, KC in *.
  destruct R. rewrite KT, KC in *. destruct (exts_types _ _ rd_type) as (XF & XR & XD & XT & XN).
  set (rs := routine_start (i_type inf) (i_channels inf)) in *. set (rc := routine_code (i_type inf) (i_channels inf)) in *.
  intros a Ha Ns Nr. destruct (Z_lt_ge_dec a (music_start ext f)) as [A|A].
  - destruct (Z_lt_ge_dec a rs) as [B|B]; [|destruct (Z_lt_ge_dec a (rs + len rc)) as [B2|B2]].
    + rewrite X4, N5 by lia. rewrite Z0 by lia. destruct (a =? 19456); reflexivity.
    + replace a with (rs + (a - rs)) by lia. rewrite X2, N4 by lia. reflexivity.
    + rewrite X4, N5 by lia. rewrite Z0 by lia. destruct (a =? 19456); reflexivity.
  - rewrite X3 by lia. pose proof (len_nonneg (exported_data (i_type inf) ext f)) as LD.
    assert (D : (forall i, 0 <= i < len (exported_data (i_type inf) ext f) -> music_start ext f + i <> 19456 \/ i < len (music_data ext f) -> i < len (music_data ext f) /\ at_ (exported_data (i_type inf) ext f) i = at_ (music_data ext f) i)
      /\ (len (music_data ext f) <= len (exported_data (i_type inf) ext f) \/ (i_type inf = RMT /\ music_start ext f + len (exported_data (i_type inf) ext f) = file_word f 4 + 1))
      /\ (music_start ext f <= 19456 < music_start ext f + len (exported_data (i_type inf) ext f) -> len (music_data ext f) <= 19456 - music_start ext f -> at_ (exported_data (i_type inf) ext f) (19456 - music_start ext f) = 0)).
    { destruct (i_type inf) eqn:T; try (cbn [exported_data]; split; [intros i Hi _; split; [exact (proj2 Hi)|reflexivity]|split; [left; lia|intros; lia]]).
      - assert (Ef : ext <> fc_ext) by (intros Q; apply XF in Q; discriminate Q). destruct (not_fc ext f Ef) as [MS MD]. rewrite MD. destruct (rd_dlt eq_refl) as [DM _]. rewrite rd_start in DM. rewrite DM.
        assert (L6 : len (skipn 6 f) = len f - 6) by (change (skipn 6 f) with (skipn (Z.to_nat 6) f); destruct (rd_env Ef); rewrite <- (skipn_slice f 6), len_slice by lia; lia).
        cbn [exported_data]. destruct (Z.eqb_spec (len f) 11270) as [E0|E0].
        + rewrite len_app. change (len [0]) with 1. split; [intros i Hi Hd; assert (i < len (skipn 6 f)) by lia; split; [lia|apply at_app1; lia]|]. split; [left; lia|].
          intros _ _. rewrite at_app2 by lia. replace (19456 - 8192 - len (skipn 6 f)) with 0 by lia. reflexivity.
        + split; [intros; split; [lia|reflexivity]|]. split; [left; lia|intros; lia].
      - assert (Ef : ext <> fc_ext) by (intros Q; apply XF in Q; discriminate Q). destruct (not_fc ext f Ef) as [MS MD]. rewrite MS, MD. cbn [exported_data].
        destruct (rd_env Ef) as [(_ & _ & Env) LF]. cbv zeta in Env. specialize (rd_rmt eq_refl). set (n := 7 + file_word f 4 - file_word f 2) in *.
        assert (Ln : n <= len f) by (destruct Env; lia). rewrite len_slice by lia.
        assert (L6 : len (skipn 6 f) = len f - 6) by (change (skipn 6 f) with (skipn (Z.to_nat 6) f); rewrite <- (skipn_slice f 6), len_slice by lia; lia).
        split; [|split; [right; split; [reflexivity|lia]|intros; lia]]. intros i Hi _. split; [lia|]. rewrite at_slice by lia. rewrite <- at_slice with (j := len f) by lia. now rewrite skipn_slice by lia. }
    destruct D as (D1 & D2 & D3). destruct (Z.ltb_spec a (music_start ext f + len (exported_data (i_type inf) ext f))) as [B|B].
    + destruct (Z_lt_ge_dec (a - music_start ext f) (len (music_data ext f))) as [C|C].
      * destruct (D1 (a - music_start ext f) ltac:(lia) ltac:(lia)) as [_ ->]. replace a with (music_start ext f + (a - music_start ext f)) at 2 by lia. rewrite N3 by lia. reflexivity.
      * rewrite N5 by lia. rewrite Z0 by lia. destruct (Z.eq_dec a 19456) as [A2|A2].
        -- rewrite A2 in *. rewrite D3 by lia. reflexivity.
        -- destruct (D1 (a - music_start ext f) ltac:(lia) ltac:(lia)) as [? _]. lia.
    + destruct D2 as [D2|[T D2]]; [|specialize (Nr T); lia]. rewrite N5 by lia. rewrite Z0 by lia. destruct (a =? 19456); reflexivity.
Qed.

(* ---- where the players are ---- *)
Definition own_player (ext : list Z) : Z := if eqb_list ext rmt_ext then 1536 else if eqb_list ext tm2_ext then 2048 else if eqb_list ext fc_ext then 1024 else -1.
Lemma load_player_wpg self module ext fuel n : bytes module -> len (i_songPos self) = 32 -> In ext native_exts -> 60000 * (len module + 1) <= Z.of_nat fuel ->
  wpg (fun _ => True) True (load_packed fuel (packed_of ext) (load_defaults (set_filename n self)) module) (fun inf => i_player inf = own_player ext).
Proof.
  intros Hb Hpos Hext Hfuel.
  pose proof (len_nonneg module) as Hlen. unfold native_exts in Hext.
  cbn [cmc_exts mpt_exts tmc_exts app In] in Hext.
  repeat (destruct Hext as [E|Hext]); try contradiction; 
  match goal with E : _ = ext |- _ => destruct E end;
  match goal with |- context [load_packed fuel ?p] => let v := eval vm_compute in p in change p with v end;
  unfold load_packed; repeat match goal with |- context [?a =? ?b] => let v := eval vm_compute in (a =? b) in change (a =? b) with v end; cbv iota; cbn [orb].
  all: match goal with
  | |- wpg _ _ (parse_cmc _ _ _ _) _ => apply parse_cmc_wpg; try assumption; try reflexivity; try discriminate
  | |- wpg _ _ (parse_dlt _ _ _) _ => apply parse_dlt_wpg; try assumption; try reflexivity
  | |- wpg _ _ (parse_mpt _ _ _) _ => apply parse_mpt_wpg; try assumption; try reflexivity
  | |- wpg _ _ (parse_rmt _ _ _) _ => apply parse_rmt_wpg; try assumption; try reflexivity
  | |- wpg _ _ (parse_tmc _ _ _) _ => apply parse_tmc_wpg; try assumption; try reflexivity
  | |- wpg _ _ (parse_tm2 _ _ _) _ => apply parse_tm2_wpg; try assumption; try reflexivity
  | |- wpg _ _ (parse_fc _ _ _) _ => apply parse_fc_wpg; try assumption; try reflexivity
  end.
  all: try (intros; exact I); try exact I.
  all: try (cbn [load_defaults set_filename set_fastplay set_channels i_fastplay i_channels]; lia).
  all: try (right; right; exact I).
  all: try (right; exact I).
  all: try tauto.
  all: try (intros; reflexivity).
  all: try (left; exact I).
Qed.

Lemma load_player fuel self name ext f inf : In ext native_exts -> named name ext -> bytes f -> len (i_songPos self) = 32 -> api_load fuel self (Some name) f = Ok inf -> i_player inf = own_player ext.
Proof.
  intros Hin Hn Hb Hp E. assert (W : wpg (fun _ => True) True (api_load fuel self (Some name) f) (fun i => i_player i = own_player ext)).
  { apply (api_load_any_fuel (fun _ => True)). destruct (load_named (plenty fuel f) self name ext f Hn (native_supported _ Hin)) as [n ->].
    apply load_player_wpg; try assumption. apply plenty_enough. }
  rewrite E in W. exact W.
Qed.

Definition player_base (t : module_type) : Z := match t with DLT | FC => 1024 | RMT => 1536 | TM2 => 2048 | _ => 1280 end.
Lemma native_info fuel name ext f inf s0 s1 : In ext native_exts -> named name ext -> bytes f -> len (i_songPos (m_info s0)) = 32 ->
  api_load fuel (m_info s0) (Some name) f = Ok inf -> asap_load fuel (Some name) f s0 = Ok s1 ->
  i_type (m_info s1) = i_type inf /\ i_channels (m_info s1) = i_channels inf /\ i_music (m_info s1) = i_music inf /\ i_songs (m_info s1) = i_songs inf /\ i_songPos (m_info s1) = i_songPos inf /\
  i_player (m_info s1) = player_base (i_type inf).
Proof.
  intros Hin Hn Hb Hp E E1. destruct (native_load_eq _ _ _ _ _ _ Hin Hn Hb Hp E) as (_ & _ & _ & _ & _ & EQ). pose proof (load_player _ _ _ _ _ _ Hin Hn Hb Hp E) as EP.
  pose proof (native_file_result _ _ _ _ _ _ Hin Hn Hb Hp E) as ((NL & NT & _) & _).
  rewrite EQ in E1. destruct (_ <=? _) in E1; [discriminate E1|]. destruct (_ <=? _) in E1; [|discriminate E1]. injection E1 as <-.
  cbn [m_info set_m_memory set_m_info]. unfold loaded_info. 
  assert (PB : i_player (if i_player inf <? 0 then set_player (file_word (routine (i_type inf) (i_channels inf)) 2) inf else inf) = player_base (i_type inf)).
  { rewrite EP. unfold native_type in NT. cbn [mpt_exts tmc_exts In] in NT. unfold own_player.
    repeat (destruct NT as [NT|NT]); destruct NT as [Ne NT]; rewrite NT; try (repeat (destruct Ne as [Ne|Ne]; try contradiction)); subst ext;
    match goal with |- context [if ?a <? 0 then _ else _] => let v := eval vm_compute in (a <? 0) in change (a <? 0) with v end; cbv iota; cbn [set_player i_player player_base];
    first [rewrite EP; reflexivity|vm_compute; reflexivity]. }
  rewrite PB. destruct (i_player inf <? 0); repeat split.
Qed.

(* ---- the initialisation ---- *)
Lemma calls_mono (k k' fi fi' : asap -> Prop) (tc : list Z) sp : forall l s, (forall t, k' t -> k t) -> (forall t, fi t -> fi' t) -> calls k fi tc sp l s -> calls k' fi' tc sp l s.
Proof.
  induction l as [|e l IH]; intros s Hk Hf C; [contradiction|]. cbn [calls] in *. destruct C as (n & s1 & E1 & H1 & E2 & R1 & M1 & C). exists n, s1. 
  split; [exact E1|]. split; [exact H1|]. split; [exact E2|]. split; [exact R1|]. split; [exact M1|]. destruct l; [destruct C as [C1 C2]; split; [exact C1|apply Hf; exact C2]|].
  intros t Ht At St Kt. apply IH; [exact Hk|exact Hf|]. apply C; auto.
Qed.

Lemma mem_code_app_l base a b m : mem_code base (a ++ b) m -> mem_code base a m.
Proof. intros H i Hi. pose proof (len_nonneg b). rewrite H by (rewrite len_app; lia). apply at_app1; lia. Qed.
Lemma mem_code_app_r base a b m c : mem_code base (a ++ b) m -> c = base + len a -> mem_code c b m.
Proof.
  intros H -> i Hi. pose proof (len_nonneg a). replace (base + len a + i) with (base + (len a + i)) by lia. rewrite H by (rewrite len_app; lia). rewrite at_app2 by lia. f_equal. lia.
Qed.

Definition touched (t : module_type) : list Z := match t with TMC => [0] | _ => [] end.
Definition counting (inf : info) (f : list Z) (t : asap) : Prop := i_type inf = TMC -> in_step (at_ f 37) 1 (ld (m_memory t) 0).

Lemma stub_runs ext f inf song u : ready ext f inf -> cmc_family (i_type inf) = false -> cpu_ok u -> m_pc u = export_init (i_type inf) (i_songs inf) (at_ f 37) -> m_a u = song -> 3 <= m_s u ->
  0 <= song < i_songs inf -> (with_stub (i_type inf) -> mem_code (stub_at inf f) (stub inf f) (m_memory u)) ->
  calls (intact (stub_lo (i_type inf)) (stub_hi (i_type inf) (i_songs inf)) u) (counting inf f) (touched (i_type inf)) (m_s u)
    (exported_inits (i_type inf) (player_base (i_type inf)) (i_music inf) (i_songs inf) song (exported_pos (i_songs inf) (i_songPos inf) song)) u.
Proof.
  intros R CF Hu P Ea Sp So C. unfold stub_at, stub, with_stub in C. destruct R. destruct rd_pos as [HP HPb]. destruct (exts_types _ _ rd_type) as (_ & _ & _ & _ & XN).
  assert (LS : len (slice (i_songPos inf) 0 (i_songs inf)) = i_songs inf) by (rewrite len_slice by lia; lia).
  assert (AS : at_ (slice (i_songPos inf) 0 (i_songs inf)) song = at_ (i_songPos inf) song) by (rewrite at_slice by lia; reflexivity).
  set (pos := slice (i_songPos inf) 0 (i_songs inf)) in *. unfold exported_pos. set (lo := low8 (i_music inf)) in *. set (hi := high8 (i_music inf)) in *.
  assert (W : forall k tc l, i_type inf <> TMC -> calls k (fun _ => True) tc (m_s u) l u -> calls k (counting inf f) tc (m_s u) l u) by (intros k tc l N H; apply (calls_mono k k (fun _ => True) _); [auto|intros t _ T; contradiction|exact H]).
  destruct (i_type inf) eqn:T; try discriminate CF; try (exfalso; cbn [native In] in XN; intuition discriminate).
  all: cbn [stub_lo stub_hi touched player_base exported_inits player_inits export_init stub_start stub_code] in *.
  - apply W; [discriminate|]. specialize (C ltac:(tauto)). destruct (Z.eqb_spec (i_songs inf) 1) as [S1|S1].
    + exact (dlt_one_run u Hu P C).
    + rewrite <- AS. eapply (dlt_many_run (1017 - i_songs inf) (i_songs inf) song pos u); try assumption; try lia; [eapply mem_code_app_r; [exact C|lia]|eapply mem_code_app_l; exact C].
  - apply W; [discriminate|]. specialize (C ltac:(tauto)). destruct (Z.eqb_spec (i_songs inf) 1) as [S1|S1].
    + exact (mpt_one_run lo hi u Hu P Sp C).
    + rewrite <- AS. eapply (mpt_many_run (1263 - i_songs inf) lo hi (i_songs inf) song pos u); try assumption; try lia; [eapply mem_code_app_r; [exact C|lia]|eapply mem_code_app_l; exact C].
  - apply W; [discriminate|]. specialize (C ltac:(tauto)). destruct (Z.eqb_spec (i_songs inf) 1) as [S1|S1].
    + exact (rmt_one_run lo hi u Hu P C).
    + rewrite <- AS. eapply (rmt_many_run lo hi (i_songs inf) song pos u); try assumption; try lia; [eapply mem_code_app_l; exact C|eapply mem_code_app_r; [exact C|reflexivity]].
  - specialize (C ltac:(tauto)). destruct (rd_tmc eq_refl) as [Hpf _].
    assert (TL : tmc_last (negb (i_songs inf =? 1)) song = if i_songs inf =? 1 then Entry 1280 (Some 96) None None else Entry 1280 (Some 0) (Some song) None) by (destruct (i_songs inf =? 1); reflexivity).
    rewrite <- TL. assert (F : at_ f 37 = 1 \/ at_ f 37 = 2 \/ (at_ f 37 = 3 \/ at_ f 37 = 4)) by lia.
    eapply calls_mono with (fi := counter_ready (at_ f 37)) (k := intact 1250 1280 u); [auto|intros t Q _; exact Q|].
    destruct F as [F|[F|F]]; [rewrite F in *|rewrite F in *|].
    + exact (tmc1_run _ lo hi song u Hu P Sp Ea C).
    + exact (tmc2_run _ lo hi song u Hu P Sp Ea C).
    + exact (tmc3_run _ lo hi _ song u F Hu P Sp Ea C).
  - apply W; [discriminate|]. specialize (C ltac:(tauto)). destruct (Z.eqb_spec (i_songs inf) 1) as [S1|S1].
    + replace song with 0 by lia. exact (tm2_one_run lo hi u Hu P Sp C).
    + exact (tm2_many_run lo hi song u Hu P Sp Ea C).
  - apply W; [discriminate|]. apply (calls_mono (fun _ => True) _ (fun _ => True) _); [auto|auto|exact (fc_run song u Hu P Ea)].
Qed.

(* the programs counting calls *)
Lemma tmc_dispatch_in_code many lo hi pf : 1 <= pf <= 4 -> exists a, tmc_code many lo hi pf = a ++ tmc_dispatch pf /\ len a + len (tmc_dispatch pf) = len (tmc_code many lo hi pf).
Proof.
  intros H. assert (F : pf = 1 \/ pf = 2 \/ pf = 3 \/ pf = 4) by lia. unfold tmc_code.
  destruct F as [-> |[-> |[-> | ->]]]; cbn [tmc_tail tmc_dispatch Z.eqb Pos.eqb].
  - exists (tmc_head many lo hi). split; [reflexivity|]. now rewrite len_app.
  - exists (tmc_head many lo hi ++ [6; 0; 76; 0; 5]). split; [now rewrite <- app_assoc|]. rewrite !len_app. change (len [6; 0; 76; 0; 5]) with 5. change (len [165; 0; 230; 0; 74; 144; 5; 176; 6]) with 9.
    change (len [6; 0; 76; 0; 5; 165; 0; 230; 0; 74; 144; 5; 176; 6]) with 14. lia.
  - exists (tmc_head many lo hi ++ [160; 1; 132; 0; 208; 10]). split; [now rewrite <- app_assoc|]. rewrite !len_app. unfold len. cbn [length]. lia.
  - exists (tmc_head many lo hi ++ [160; 1; 132; 0; 208; 10]). split; [now rewrite <- app_assoc|]. rewrite !len_app. unfold len. cbn [length]. lia.
Qed.

Lemma intact_mem_code lo hi s u base l : intact lo hi s u -> lo <= base -> base + len l <= hi -> mem_code base l (m_memory s) -> mem_code base l (m_memory u).
Proof. exact (intact_code lo hi s u base l). Qed.

Lemma saved_stub ext f inf2 s' : ready ext f inf2 -> (forall a, 0 <= a < 65536 -> ld (m_memory s') a = load (fun _ => 0) (export_blocks inf2 ext f) a) ->
  with_stub (i_type inf2) -> mem_code (stub_at inf2 f) (stub inf2 f) (m_memory s').
Proof. intros R M Ws. destruct (export_memory ext f inf2 (ld (m_memory s')) R M) as (X1 & _). exact (X1 Ws). Qed.

Lemma saved_init fuel name ext f inf inf2 g s0 s1 : exported fuel (m_info s0) name ext f inf inf2 g -> faithful ext f inf inf2 -> asap_load fuel (Some name) f s0 = Ok s1 -> sap_type_of (i_type inf) = SAP_B ->
  forall fuel' s name', named name' sap_ext -> len (i_songPos (m_info s)) = 32 ->
  exists s', asap_load fuel' (Some name') g s = Ok s' /\
    forall u song, cpu_ok u -> m_pc u = i_init (m_info s') -> m_a u = song -> 3 <= m_s u -> 0 <= song < i_songs inf -> intact (stub_lo (i_type inf)) (stub_hi (i_type inf) (i_songs inf)) s' u ->
      calls (intact (stub_lo (i_type inf)) (stub_hi (i_type inf) (i_songs inf)) u) (fun t => i_type inf = TMC -> in_step (at_ f 37) 1 (ld (m_memory t) 0)) (if module_type_eqb (i_type inf) TMC then [0] else []) (m_s u)
        (exported_inits (i_type inf) (i_player (m_info s1)) (i_music (m_info s1)) (i_songs inf) song (exported_pos (i_songs inf) (i_songPos inf) song)) u.
Proof.
  intros HE HF E1 TB fuel' s name' Hn' Hp'. destruct (saved _ _ _ _ _ _ _ _ HE HF fuel' s name' Hn' Hp') as (s' & E' & S & M). exists s'. split; [exact E'|].
  destruct (export_ready _ _ _ _ _ _ _ _ HE HF) as [R _]. destruct HE as [Hin Hn Hb Hp E Hed _]. destruct (edited_keeps _ _ Hed) as (KT & KC & KS & KP & KV).
  destruct (native_info _ _ _ _ _ _ _ Hin Hn Hb Hp E E1) as (T1 & C1 & M1 & S1 & P1 & B1). pose proof (saved_stub _ _ _ _ R M) as ST.
  intros u song Hu Pu Au Su So Iu. rewrite (ss_init _ _ S) in Pu. cbn [info_of export_info set_headerLen set_player set_init i_init] in Pu.
  assert (CF : cmc_family (i_type inf2) = false) by (rewrite KT; destruct (i_type inf); (reflexivity || discriminate TB)).
  pose proof (stub_runs ext f inf2 song u R CF Hu Pu Au Su) as X. rewrite KS in X. specialize (X So). unfold counting in X. rewrite KT, KP in X. rewrite (fa_music _ _ _ _ HF) in X. rewrite B1, M1.
  assert (TT : touched (i_type inf) = if module_type_eqb (i_type inf) TMC then [0] else []) by (destruct (i_type inf); reflexivity). rewrite <- TT. apply X.
  intros Ws. destruct (stub_facts _ _ _ R ltac:(rewrite KT; exact Ws)) as (F1 & F2 & _). rewrite KT in F1, F2. rewrite KS in F2. eapply intact_code; [exact Iu|exact F1|lia|]. apply ST. rewrite KT. exact Ws.
Qed.

Lemma saved_play fuel name ext f inf inf2 g s0 s1 : exported fuel (m_info s0) name ext f inf inf2 g -> faithful ext f inf inf2 -> asap_load fuel (Some name) f s0 = Ok s1 -> i_type inf <> TMC ->
  forall fuel' s name', named name' sap_ext -> len (i_songPos (m_info s)) = 32 ->
  exists s', asap_load fuel' (Some name') g s = Ok s' /\
    play_entry (i_type (m_info s')) (i_player (m_info s')) = play_entry (i_type (m_info s1)) (i_player (m_info s1)) /\
    (sap_type_of (i_type inf) = SAP_C -> forall song pos, player_inits (i_type (m_info s')) (i_player (m_info s')) (i_music (m_info s')) song pos = player_inits (i_type (m_info s1)) (i_player (m_info s1)) (i_music (m_info s1)) song pos).
Proof.
  intros HE HF E1 TB fuel' s name' Hn' Hp'. destruct (saved _ _ _ _ _ _ _ _ HE HF fuel' s name' Hn' Hp') as (s' & E' & S & _). exists s'. split; [exact E'|].
  destruct (export_ready _ _ _ _ _ _ _ _ HE HF) as [R _]. destruct HE as [Hin Hn Hb Hp E Hed _]. destruct (edited_keeps _ _ Hed) as (KT & KC & KS & KP & KV).
  destruct (native_info _ _ _ _ _ _ _ Hin Hn Hb Hp E E1) as (T1 & C1 & M1 & S1 & P1 & B1).
  assert (TY : i_type (m_info s') = export_type (i_type inf)) by (rewrite (ss_module_type _ _ S); cbn [info_of export_info set_headerLen set_player set_init set_type i_type]; now rewrite KT).
  assert (PL : i_player (m_info s') = export_player (i_type inf) (at_ f 37)) by (rewrite (ss_player _ _ S); cbn [info_of export_info set_headerLen set_player i_player]; now rewrite KT).
  assert (XN : native (i_type inf) \/ i_type inf = FC) by (destruct R; destruct (exts_types _ _ rd_type) as (_ & _ & _ & _ & XN); rewrite KT in XN; exact XN).
  rewrite TY, PL, T1, B1. split.
  - destruct (i_type inf); try (exfalso; cbn [native In] in XN; intuition discriminate); try congruence; reflexivity.
  - intros TC song pos. assert (MU : i_music (m_info s') = i_music (m_info s1)).
    { rewrite M1, <- (fa_music _ _ _ _ HF). apply (ss_music _ _ S). cbn [info_of export_info set_headerLen set_player set_init set_type i_type]. rewrite KT. destruct (i_type inf); (reflexivity || discriminate TC). }
    rewrite MU. destruct (i_type inf); try discriminate TC; try (exfalso; cbn [native In] in XN; intuition discriminate); reflexivity.
Qed.

Lemma saved_counts fuel name ext f inf inf2 g s0 s1 : exported fuel (m_info s0) name ext f inf inf2 g -> faithful ext f inf inf2 -> asap_load fuel (Some name) f s0 = Ok s1 -> i_type inf = TMC ->
  forall fuel' s name', named name' sap_ext -> len (i_songPos (m_info s)) = 32 ->
  exists s', asap_load fuel' (Some name') g s = Ok s' /\ ld (m_memory s1) (i_music (m_info s1) + 31) = at_ f 37 /\
    forall u c, cpu_ok u -> m_pc u = i_player (m_info s') -> intact (stub_lo TMC) (stub_hi TMC (i_songs inf)) s' u -> in_step (at_ f 37) c (ld (m_memory u) 0) ->
      exists n u1, executes n u = Ok u1 /\ cpu_ok u1 /\ m_pc u1 = i_player (m_info s1) + (if 1 <=? c - 1 then 6 else 3) /\
        in_step (at_ f 37) (if 1 <=? c - 1 then c - 1 else at_ f 37) (ld (m_memory u1) 0) /\ m_s u1 = m_s u /\ (forall a, 1 <= a -> ld (m_memory u1) a = ld (m_memory u) a) /\ rest u1 = rest u.
Proof.
  intros HE HF E1 TT fuel' s name' Hn' Hp'. destruct (saved _ _ _ _ _ _ _ _ HE HF fuel' s name' Hn' Hp') as (s' & E' & S & M). exists s'. split; [exact E'|].
  destruct (export_ready _ _ _ _ _ _ _ _ HE HF) as [R _]. destruct HE as [Hin Hn Hb Hp E Hed _]. destruct (edited_keeps _ _ Hed) as (KT & KC & KS & KP & KV).
  destruct (native_info _ _ _ _ _ _ _ Hin Hn Hb Hp E E1) as (T1 & C1 & M1 & S1 & P1 & B1). rewrite TT in *.
  assert (Ef : ext <> fc_ext). { destruct R. destruct (exts_types _ _ rd_type) as (XF & _). intros Q. apply XF in Q. rewrite KT in Q. discriminate Q. }
  pose proof R as R'. destruct R' as [Rin Rb Rm Rs Rp Rst Rty Rch Renv Rmk Rr Rf Rd Rt Rsh Rab]. rewrite KT in Rt. destruct (Rt eq_refl) as [Hpf L37].
  destruct (not_fc ext f Ef) as [MS MD]. destruct (Renv Ef) as [_ LF].
  assert (L6 : len (skipn 6 f) = len f - 6) by (change (skipn 6 f) with (skipn (Z.to_nat 6) f); rewrite <- (skipn_slice f 6), len_slice by lia; lia).
  split.
  - pose proof (native_memory _ _ _ _ _ _ Hin Hn Hb Hp E1) as (_ & _ & N3 & _). cbv zeta in N3. rewrite M1, <- (fa_music _ _ _ _ HF), Rst. rewrite N3 by (rewrite MD; lia). rewrite MD.
    change (skipn 6 f) with (skipn (Z.to_nat 6) f). rewrite <- (skipn_slice f 6) by lia. rewrite at_slice by lia. reflexivity.
  - intros u c Hu Pu Iu In0.
    assert (PL : i_player (m_info s') = tmc_player (at_ f 37)) by (rewrite (ss_player _ _ S); cbn [info_of export_info set_headerLen set_player i_player]; now rewrite KT). rewrite PL in Pu.
    assert (Ws : with_stub (i_type inf2)) by (rewrite KT; unfold with_stub; tauto). destruct (stub_facts _ _ _ R Ws) as (F1 & F2 & F3 & _). pose proof (saved_stub _ _ _ _ R M Ws) as ST.
    rewrite KT in F1, F2. rewrite KS in F2. assert (STu : mem_code (stub_at inf2 f) (stub inf2 f) (m_memory u)) by (eapply intact_code; [exact Iu|exact F1|lia|exact ST]).
    assert (SC : stub inf2 f = tmc_code (negb (i_songs inf =? 1)) (low8 (i_music inf2)) (high8 (i_music inf2)) (at_ f 37)) by (unfold stub; rewrite KT, KS; reflexivity).
    destruct (tmc_dispatch_in_code (negb (i_songs inf =? 1)) (low8 (i_music inf2)) (high8 (i_music inf2)) (at_ f 37) Hpf) as (a & EA & LA).
    assert (D : mem_code (1280 - len (tmc_dispatch (at_ f 37))) (tmc_dispatch (at_ f 37)) (m_memory u)).
    { apply (mem_code_app_r (stub_at inf2 f) a); [rewrite <- EA, <- SC; exact STu|]. rewrite SC in F2. cbn [stub_hi] in F2. lia. }
    destruct (tmc_counts (at_ f 37) c u Hpf Hu Pu D In0) as (n & u1 & X1 & X2 & X3 & X4 & X5 & X6 & X7). exists n, u1. rewrite B1. cbn [player_base].
    split; [exact X1|]. split; [exact X2|]. split; [rewrite X3; destruct (1 <=? c - 1); reflexivity|]. split; [exact X4|]. split; [exact X5|]. split; [exact X6|exact X7].
Qed.

(* ---- starting a song ---- *)
Lemma u8_255 v : Z.land v 255 = v mod 256. Proof. apply land_255. Qed.
Lemma shiftr_high v : Z.shiftr v 8 = high8 v. Proof. rewrite Z.shiftr_div_pow2 by lia. reflexivity. Qed.

Definition init_from (pc a x y : Z) (s : asap) : asap :=
  let s := set_m_y (Z.land y 255) (set_m_x (Z.land x 255) (set_m_a (Z.land a 255) (set_m_pc pc s))) in
  set_m_s 253 (set_m_memory (st (st (st (m_memory s) 53760 210) 510 255) 511 209) s).
Lemma init_eq pc a x y s : do_6502_init pc a x y s = init_frames 50 (init_from pc a x y s).
Proof. reflexivity. Qed.
Lemma init_from_state pc a x y s : let s1 := init_from pc a x y s in
  entered (Entry pc (Some (a mod 256)) (Some (x mod 256)) (Some (y mod 256))) s1 /\ m_s s1 = 253 /\ rest s1 = rest s /\
    (forall k, 0 <= k -> k <> 510 -> k <> 511 -> k <> 53760 -> ld (m_memory s1) k = ld (m_memory s) k) /\ code_at 510 [255; 209] s1 /\ ld (m_memory s1) 53760 = 210.
Proof.
  intros s1. subst s1. unfold init_from. cbv zeta.
  split; [|split; [reflexivity|split; [reflexivity|split; [|split]]]].
  - unfold entered, given. cbn [e_pc e_a e_x e_y m_pc m_a m_x m_y set_m_s set_m_memory set_m_y set_m_x set_m_a set_m_pc]. rewrite !land_255. repeat split.
  - intros k K0 K1 K2 K3. cbn [m_memory set_m_s set_m_memory set_m_y set_m_x set_m_a set_m_pc]. now rewrite !ld_st_other by lia.
  - intros i Hi. change (len [255; 209]) with 2 in Hi. cbn [m_memory set_m_s set_m_memory set_m_y set_m_x set_m_a set_m_pc]. assert (I2 : i = 0 \/ i = 1) by lia. destruct I2 as [-> | ->].
    + rewrite ld_st_other by lia. now rewrite ld_st_same.
    + now rewrite ld_st_same.
  - cbn [m_memory set_m_s set_m_memory set_m_y set_m_x set_m_a set_m_pc]. rewrite !ld_st_other by lia. now rewrite ld_st_same.
Qed.
Lemma init_enters pc a x y s b s' : do_6502_init pc a x y s = Ok (b, s') ->
  exists s1, entered (Entry pc (Some (a mod 256)) (Some (x mod 256)) (Some (y mod 256))) s1 /\ m_s s1 = 253 /\ rest s1 = rest s /\
    (forall k, 0 <= k -> k <> 510 -> k <> 511 -> k <> 53760 -> ld (m_memory s1) k = ld (m_memory s) k) /\ code_at 510 [255; 209] s1 /\ ld (m_memory s1) 53760 = 210 /\ init_frames 50 s1 = Ok (b, s').
Proof.
  rewrite init_eq. generalize (init_frames 50). intros F E. exists (init_from pc a x y s). destruct (init_from_state pc a x y s) as (H1 & H2 & H3 & H4 & H5 & H6). repeat (split; [assumption|]). exact E.
Qed.

Lemma started_nil s b s' : started [] s b s' = (b = true /\ s' = s). Proof. reflexivity. Qed.
Lemma started_cons e l s b s' : started (e :: l) s b s' = (exists s1 b1 s2, entered e s1 /\ m_s s1 = 253 /\ rest s1 = rest s /\ (forall a, 0 <= a -> a <> 510 -> a <> 511 -> a <> 53760 -> ld (m_memory s1) a = ld (m_memory s) a) /\
      code_at 510 [255; 209] s1 /\ ld (m_memory s1) 53760 = 210 /\ init_frames 50 s1 = Ok (b1, s2) /\ (if b1 then started l s2 b s' else b = false /\ s' = s2)).
Proof. reflexivity. Qed.

Lemma started_one pc a x y s b s' : do_6502_init pc a x y s = Ok (b, s') -> started [Entry pc (Some (a mod 256)) (Some (x mod 256)) (Some (y mod 256))] s b s'.
Proof.
  intros E. destruct (init_enters _ _ _ _ _ _ _ E) as (s1 & H1 & H2 & H3 & H4 & H5 & H6 & H7). rewrite started_cons. exists s1, b, s'.
  split; [exact H1|]. split; [exact H2|]. split; [exact H3|]. split; [exact H4|]. split; [exact H5|]. split; [exact H6|]. split; [exact H7|]. rewrite started_nil. destruct b; auto.
Qed.
Lemma then_init_split pc a x y r b s' : then_init pc a x y r = Ok (b, s') -> exists b1 s1, r = Ok (b1, s1) /\ (b1 = true -> do_6502_init pc a x y s1 = Ok (b, s')) /\ (b1 = false -> b = false /\ s' = s1).
Proof.
  unfold then_init. generalize (do_6502_init pc a x y). intros F E. destruct r as [[b1 s1]|e|e|]; cbn in E; try discriminate. exists b1, s1.
  split; [reflexivity|]. split; intros ->; cbn in E; [exact E|]. injection E as -> ->. auto.
Qed.
Lemma started_two pc a x y pc' a' x' y' s b s' : then_init pc' a' x' y' (do_6502_init pc a x y s) = Ok (b, s') ->
  started [Entry pc (Some (a mod 256)) (Some (x mod 256)) (Some (y mod 256)); Entry pc' (Some (a' mod 256)) (Some (x' mod 256)) (Some (y' mod 256))] s b s'.
Proof.
  intros E. apply then_init_split in E. destruct E as (b1 & s2 & E1 & E2 & E3). destruct (init_enters _ _ _ _ _ _ _ E1) as (s1 & H1 & H2 & H3 & H4 & H5 & H6 & H7).
  rewrite started_cons. exists s1, b1, s2. split; [exact H1|]. split; [exact H2|]. split; [exact H3|]. split; [exact H4|]. split; [exact H5|]. split; [exact H6|]. split; [exact H7|].
  destruct b1; [exact (started_one _ _ _ _ _ _ _ (E2 eq_refl))|exact (E3 eq_refl)].
Qed.

Lemma song_starts song s b s' : play_init song s = Ok (b, s') -> 0 <= song < 256 -> bytes (i_songPos (m_info s)) -> 0 <= i_music (m_info s) < 65536 ->
  match i_type (m_info s) with
  | SAP_D | SAP_S => True
  | SAP_B => started [Entry (i_init (m_info s)) (Some song) (Some 0) (Some 0)] s b s'
  | t => exists s2, started (player_inits t (i_player (m_info s)) (i_music (m_info s)) song (at_ (i_songPos (m_info s)) song)) s b s2 /\
      s' = match t with TMC | TM2 => if b then set_m_tmcPerFrameCounter 1 s2 else s2 | _ => s2 end
  end.
Proof.
  intros E So Bp Mu. unfold play_init in E. cbv zeta in E. 
  assert (SM : song mod 256 = song) by (apply Z.mod_small; lia). assert (HM : high8 (i_music (m_info s)) mod 256 = high8 (i_music (m_info s))) by (unfold high8; lia).
  assert (PB : byte (at_ (i_songPos (m_info s)) song)) by (apply at_byte'; exact Bp). assert (PM : at_ (i_songPos (m_info s)) song mod 256 = at_ (i_songPos (m_info s)) song) by (apply Z.mod_small; exact PB).
  rewrite ?shiftr_high in E. fold (low8 (i_music (m_info s))) in *.
  destruct (i_type (m_info s)); try exact I.
  - apply started_one in E. now rewrite SM in E.
  - exists s'. split; [|reflexivity]. apply started_two in E. rewrite SM, HM in E. exact E.
  - exists s'. split; [|reflexivity]. apply started_two in E. rewrite SM, HM in E. exact E.
  - exists s'. split; [|reflexivity]. apply started_two in E. rewrite SM, HM in E. exact E.
  - exists s'. split; [|reflexivity]. apply started_two in E. rewrite SM, HM in E. exact E.
  - exists s'. split; [|reflexivity]. apply started_two in E. rewrite SM, HM in E. exact E.
  - exists s'. split; [|reflexivity]. apply bind_ok in E. destruct E as (p & G & E). apply get_inv in G. destruct G as [_ ->]. apply started_one in E. rewrite PM in E. exact E.
  - exists s'. split; [|reflexivity]. apply bind_ok in E. destruct E as (p & G & E). apply get_inv in G. destruct G as [_ ->]. apply started_two in E. rewrite PM, HM in E. exact E.
  - exists s'. split; [|reflexivity]. apply bind_ok in E. destruct E as (p & G & E). apply get_inv in G. destruct G as [_ ->]. apply started_one in E. rewrite PM, HM in E. exact E.
  - apply bind_ok in E. destruct E as ([b2 s2] & E1 & E2). injection E2 as <- <-. exists s2. split; [|reflexivity]. apply started_two in E1. rewrite SM, HM in E1. exact E1.
  - apply bind_ok in E. destruct E as ([b2 s2] & E1 & E2). injection E2 as <- <-. exists s2. split; [|reflexivity]. apply started_two in E1. rewrite SM, HM in E1. exact E1.
  - exists s'. split; [|reflexivity]. apply started_one in E. rewrite SM in E. exact E.
Qed.

Lemma refine1 pc a x y a' x' y' : agrees a a' -> agrees x x' -> agrees y y' -> refines (Entry pc a x y) (Entry pc a' x' y').
Proof. intros H1 H2 H3. split; [reflexivity|]. split; [exact H1|]. split; [exact H2|exact H3]. Qed.
Lemma agrees_none v : agrees None v. Proof. left. reflexivity. Qed.
Lemma agrees_same v : agrees v v. Proof. right. reflexivity. Qed.
Lemma same_calls t player music songs songPos song : (t = TMC -> songs <> 1) -> (songs = 1 -> t = DLT \/ t = MPT \/ t = RMT -> song = 0 /\ at_ songPos 0 = 0) ->
  Forall2 refines (exported_inits t player music songs song (exported_pos songs songPos song)) (player_inits t player music song (at_ songPos song)).
Proof.
  intros T1 T2. assert (PO : t = DLT \/ t = MPT \/ t = RMT -> exported_pos songs songPos song = at_ songPos song).
  { intros C. unfold exported_pos. destruct (Z.eqb_spec songs 1) as [Q|Q]; [|reflexivity]. destruct (T2 Q C) as [-> ->]. reflexivity. }
  assert (TO : t = TMC -> (songs =? 1) = false) by (intros C; apply Z.eqb_neq; exact (T1 C)). clear T1 T2.
  destruct t; cbn [exported_inits player_inits]; rewrite ?PO by tauto; try rewrite (TO eq_refl);
  repeat (apply Forall2_cons; [apply refine1; (apply agrees_none || apply agrees_same)|]); apply Forall2_nil.
Qed.
