(* The SAP file made from a native module: it loads, and what the memory holds *)
From Coq Require Import String.
From Verif Require Import Base BaseFacts Loop MemModel InfoModel InfoSpec InfoProofs NativeModel WindowSpec NativeSpec NativeProofs NativeLoadProofs WriterModel WriteModel WriterProofs SapSpec SapWriteProofs SapLoadProofs FlashFile SaveProofs Resources
  FlashSpec LoadSpec MoveSpec PokeyModel MachineModel PlayModel LoadProofs CpuSpec CpuProofs CpuFacts CallSpec ExportSpec ExportStub ExportProofs.

Lemma parse_module_music inf f inf' : parse_module inf f = Ok inf' -> i_music inf' = file_word f 2.
Proof.
  intros E. unfold parse_module in E. apply bind_ok in E. destruct E as (m0 & _ & E). apply bind_ok in E. destruct E as (m1 & _ & E).
  destruct (negb _) in E; [discriminate E|]. apply bind_ok in E. destruct E as (a & G2 & E). apply bind_ok in E. destruct E as (z & G3 & E).
  apply get_word_inv' in G2. destruct G2 as (_ & _ & ->). destruct (_ && _) in E; [discriminate E|]. cbv zeta in E.
  destruct (_ =? _) in E; [injection E as <-; reflexivity|]. destruct (_ || _) in E; [discriminate E|].
  apply bind_ok in E. destruct E as (ia & _ & E). destruct (negb _) in E; [discriminate E|].
  apply bind_ok in E. destruct E as (il & _ & E). destruct (negb _) in E; [discriminate E|]. injection E as <-. reflexivity.
Qed.

(* facts the parsers check *)
Lemma parser_checks fuel self name ext f inf : In ext native_exts -> named name ext -> api_load fuel self (Some name) f = Ok inf ->
  (ext = dlt_ext -> file_word f 2 = 8192) /\ (In ext tmc_exts -> 1 <= at_ f 37 <= 4 /\ 37 < len f).
Proof.
  intros Hin Hn E. destruct (load_named fuel self name ext f Hn (native_supported _ Hin)) as [n EL]. rewrite EL in E. clear EL. split.
  - intros ->. change (packed_of dlt_ext) with 7629924 in E. unfold load_packed in E. cbn [Z.eqb Pos.eqb orb] in E. unfold parse_dlt in E.
    destruct (_ && _) in E; [discriminate E|]. apply bind_ok in E. destruct E as (i1 & E1 & E). apply parse_module_music in E1. 
    destruct (Z.eqb_spec (i_music i1) 8192) as [Q|Q]; [congruence|discriminate E].
  - intros Ht. assert (X : exists i, parse_tmc fuel i f = Ok inf).
    { cbn [tmc_exts In] in Ht. destruct Ht as [<-|[<-|[]]];
      match type of E with load_packed _ ?p _ _ = _ => let v := eval vm_compute in p in change p with v in E end;
      unfold load_packed in E; cbn [Z.eqb Pos.eqb orb] in E; eexists; exact E. }
    destruct X as [i X]. unfold parse_tmc in X. destruct (len f <? 464) eqn:L; [discriminate X|].
    do 3 (apply bind_ok in X; destruct X as (? & _ & X)). apply bind_ok in X; destruct X as (? & _ & X). apply bind_ok in X; destruct X as (? & _ & X).
    cbv zeta in X. destruct (_ <=? _) in X; [discriminate X|]. do 3 (apply bind_ok in X; destruct X as (? & _ & X)).
    apply bind_ok in X. destruct X as (p & G & X). apply get_inv in G. destruct G as [_ ->]. destruct ((at_ f 37 <? 1) || (4 <? at_ f 37)) eqn:Q; [discriminate X|]. lia.
Qed.

(* everything known about an exported module *)
Record ready (ext f : list Z) (inf : info) : Prop := {
  rd_ext : In ext native_exts;
  rd_bytes : bytes f;
  rd_music : 0 <= i_music inf <= 65535;
  rd_songs : 1 <= i_songs inf <= 32;
  rd_pos : len (i_songPos inf) = 32 /\ bytes (i_songPos inf);
  rd_start : i_music inf = music_start ext f;
  rd_type : native_type ext (i_type inf);
  rd_channels : 1 <= i_channels inf <= 2;
  rd_env : ext <> fc_ext -> enveloped ext f /\ 6 < len f;
  rd_mark : i_type inf = DLT \/ i_type inf = MPT \/ i_type inf = RMT \/ i_type inf = TMC \/ i_type inf = TM2 -> at_ f 0 = 255 /\ at_ f 1 = 255;
  rd_rmt : i_type inf = RMT -> file_word f 2 <= file_word f 4;
  rd_fc : i_type inf = FC -> 0 < len f /\ 2560 + len f <= 65536;
  rd_dlt : i_type inf = DLT -> i_music inf = 8192 /\ (len f = 11270 \/ len f = 11271);
  rd_tmc : i_type inf = TMC -> 1 <= at_ f 37 <= 4 /\ 37 < len f;
  rd_short : shortest (i_type inf) <= len f;
  rd_above : file_word (routine (i_type inf) (i_channels inf)) 4 < i_music inf
}.
Definition info_of (f : list Z) (inf : info) : info := export_info (export_type (i_type inf)) (export_init (i_type inf) (i_songs inf) (at_ f 37)) (export_player (i_type inf) (at_ f 37)) inf.

Lemma exts_types ext t : native_type ext t -> (ext = fc_ext <-> t = FC) /\ (ext = rmt_ext <-> t = RMT) /\ (t = DLT -> ext = dlt_ext) /\ (t = TMC -> In ext tmc_exts) /\ (native t \/ t = FC).
Proof.
  intros H. unfold native_type in H. cbn [mpt_exts tmc_exts In] in H. unfold native.
  repeat (destruct H as [H|H]); destruct H as [He ->]; try (repeat (destruct He as [He|He]; try contradiction)); subst ext;
  (split; [split; intros Q; (discriminate Q || reflexivity)|]); (split; [split; intros Q; (discriminate Q || reflexivity)|]);
  (split; [intros Q; (discriminate Q || reflexivity)|]); (split; [intros Q; try discriminate Q; cbn [tmc_exts In]; tauto|]); cbn [In]; tauto.
Qed.

Lemma export_ready fuel self name ext f inf inf2 g : exported fuel self name ext f inf inf2 g -> faithful ext f inf inf2 ->
  ready ext f inf2 /\ sap_editable dummy (info_of f inf2).
Proof.
  intros [Hin Hn Hb Hp E Hed Hsv] [F1 F2 F3 F4 Fm Fp Fs Fmk Fr Ff].
  pose proof (native_file_result _ _ _ _ _ _ Hin Hn Hb Hp E) as FP. destruct (parser_checks _ _ _ _ _ _ Hin Hn E) as [CD CT].
  destruct FP as ((NL & NT & _) & M & _). destruct (edited_keeps _ _ Hed) as (KT & KC & KS & KP & KV).
  destruct (exts_types _ _ NT) as (XF & XR & XD & XT & XN). pose proof NL as NL'. destruct NL.
  assert (EM : i_music inf = music_start ext f).
  { unfold music_start. destruct (eqb_list ext fc_ext) eqn:Q.
    - apply eqb_list_spec in Q. destruct M as [[_ M]|[N _]]; [exact M|contradiction].
    - destruct M as [[M _]|(_ & M & _)]; [subst ext; discriminate Q|exact M]. }
  assert (SH : shortest (i_type inf) <= len f).
  { destruct M as [[M _]|(_ & _ & M)]; [|exact M]. rewrite (proj1 XF M). pose proof (len_nonneg f). cbn [shortest]. lia. }
  assert (NF : ext <> fc_ext -> enveloped ext f /\ 6 < len f).
  { intros N. split; [exact (native_enveloped _ _ _ _ _ _ Hin N Hn Hb E)|]. destruct XN as [XN|XN]; [|apply XF in XN; contradiction].
    cbn [native In] in XN. repeat (destruct XN as [XN|XN]; [rewrite <- XN in SH; cbn [shortest] in SH; lia|]). contradiction. }
  split.
  - split; rewrite ?KT, ?KC, ?KS, ?KP, ?Fm; try assumption; try lia.
    + split; assumption.
    + intros T. specialize (XD T). split; [rewrite EM; unfold music_start; rewrite XD; change (eqb_list dlt_ext fc_ext) with false; cbv iota; exact (CD XD)|].
      destruct (load_named fuel self name ext f Hn (native_supported _ Hin)) as [n EL]. rewrite EL, XD in E. clear - E.
      change (packed_of dlt_ext) with 7629924 in E. unfold load_packed in E. cbn [Z.eqb Pos.eqb orb] in E. unfold parse_dlt in E.
      destruct (negb (len f =? 11270) && negb (len f =? 11271)) eqn:Q; [discriminate E|]. lia.
    + destruct Hsv as (out & tag & w & w' & Ho & Hw & Ew & _). rewrite write_sap in Ew by exact Ho. unfold write_executable in Ew.
      rewrite (routine_player inf2) in Ew by (rewrite KT; exact XN). rewrite KT, KC in Ew. destruct (routine_file (i_type inf) (i_channels inf) XN) as (E1 & E2 & _). rewrite E1, E2 in Ew. cbn [wbind bind] in Ew.
      rewrite Fm in Ew. destruct (Z.leb_spec (i_music inf) (file_word (routine (i_type inf) (i_channels inf)) 4)) as [C|C]; [discriminate Ew|exact C].
  - assert (A : sap_editable dummy (export_info (export_type (i_type inf2)) (export_init (i_type inf2) (i_songs inf2) (at_ f 37)) (export_player (i_type inf2) (at_ f 37)) inf)).
    { rewrite KT, KS. apply native_exportable; [exact NL'|exact Fs| |].
      - unfold export_type. destruct (i_type inf) eqn:T; cbn [cmc_family export_init]; try (right; split; reflexivity); left; (split; [reflexivity|]); try lia; try (destruct (_ =? _); lia).
        + clear - XN. exfalso. cbn [native In] in XN. intuition discriminate.
        + clear - XN. exfalso. cbn [native In] in XN. intuition discriminate.
        + clear - XN. exfalso. cbn [native In] in XN. intuition discriminate.
        + clear - XN. exfalso. cbn [native In] in XN. intuition discriminate.
        + unfold tmc_init, tmc_tail. destruct (at_ f 37 =? 1), (at_ f 37 =? 2), (negb (i_songs inf =? 1)); vm_compute; split; discriminate.
      - destruct (i_type inf); cbn [export_player]; try lia. unfold tmc_player. destruct (at_ f 37 =? 1), (at_ f 37 =? 2); lia. }
    exact (edited_editable _ _ _ (edited_export _ _ _ _ _ Hed) A).
Qed.

Ltac side := match goal with T : i_type _ = _, XF : _ <-> _, XR : _ <-> _ |- _ =>
  first [assumption|congruence|rewrite T; assumption|match goal with H : _ -> at_ _ 0 = 255 /\ _ |- _ => apply H; tauto end
    |match goal with H : _ <> _ -> ?e <> ?x |- ?e <> ?x => apply H; discriminate end|apply XF; reflexivity|apply XR; reflexivity|match goal with H : ?a = ?a -> _ |- _ => specialize (H eq_refl); tauto end] end.
Lemma ready_emits ext f inf : ready ext f inf -> sap_editable dummy (info_of f inf) -> emits (write_executable false inf f) (sap_file (sap_header_text (info_of f inf)) (export_blocks inf ext f)).
Proof.
  intros R HX. destruct R. destruct rd_pos0 as [HP HPb]. destruct (exts_types _ _ rd_type0) as (XF & XR & XD & XT & XN). unfold info_of in *.
  assert (Nfc : i_type inf <> FC -> ext <> fc_ext) by (intros N Q; apply N, XF, Q). assert (Nrmt : i_type inf <> RMT -> ext <> rmt_ext) by (intros N Q; apply N, XR, Q).
  destruct (cmc_family (i_type inf)) eqn:CF.
  { apply emit_cmc; try assumption; [apply Nfc|apply Nrmt]; intros Q; rewrite Q in CF; discriminate CF. }
  destruct (i_type inf) eqn:T; try discriminate CF; try (exfalso; cbn [native In] in XN; intuition discriminate); rewrite <- T in HX |- *.
  - apply emit_dlt; side.
  - apply emit_mpt; side.
  - apply emit_rmt; side.
  - apply emit_tmc; side.
  - apply emit_tm2; side.
  - apply emit_fc; side.
Qed.

(* ---- the blocks are well-formed ---- *)
Definition stub (inf : info) (f : list Z) : list Z :=
  stub_code (i_type inf) (i_songs inf) (slice (i_songPos inf) 0 (i_songs inf)) (low8 (i_music inf)) (high8 (i_music inf)) (at_ f 37).
Definition stub_at (inf : info) (f : list Z) : Z := stub_start (i_type inf) (i_songs inf) (at_ f 37).
Definition with_stub (t : module_type) : Prop := t = DLT \/ t = MPT \/ t = RMT \/ t = TMC \/ t = TM2.

Lemma bytes_skipn k l : bytes l -> bytes (skipn k l).
Proof. intros H. rewrite <- (firstn_skipn k l) in H. now apply Forall_app in H. Qed.
Ltac bytes_tac := unfold bytes; repeat (constructor; [unfold byte; lia|]); constructor.

Lemma stub_facts ext f inf : ready ext f inf -> with_stub (i_type inf) ->
  stub_lo (i_type inf) <= stub_at inf f /\ stub_at inf f + len (stub inf f) = stub_hi (i_type inf) (i_songs inf) /\ 0 < len (stub inf f) /\ bytes (stub inf f).
Proof.
  intros R Hs. destruct R. destruct rd_pos0 as [HP HPb]. unfold stub, stub_at.
  assert (L8 : 0 <= low8 (i_music inf) < 256 /\ 0 <= high8 (i_music inf) < 256) by (unfold low8, high8; lia).
  assert (LS : len (slice (i_songPos inf) 0 (i_songs inf)) = i_songs inf) by (rewrite len_slice by lia; lia).
  assert (BS := bytes_slice _ 0 (i_songs inf) HPb).
  destruct Hs as [T|[T|[T|[T|T]]]]; rewrite T in *; cbn [stub_lo stub_hi stub_start stub_code].
  - destruct (Z.eqb_spec (i_songs inf) 1); [change (len dlt_one) with 5; repeat split; try lia; bytes_tac|]. rewrite len_app, LS, len_stub_dlt_many. repeat split; try lia.
    apply Forall_app. split; [exact BS|]. unfold dlt_many. bytes_tac.
  - destruct (Z.eqb_spec (i_songs inf) 1); [rewrite len_stub_mpt_one; repeat split; try lia; unfold mpt_one; bytes_tac|]. rewrite len_app, LS, len_stub_mpt_many. repeat split; try lia.
    apply Forall_app. split; [exact BS|]. unfold mpt_many. bytes_tac.
  - destruct (Z.eqb_spec (i_songs inf) 1); [rewrite len_stub_rmt_one; repeat split; try lia; unfold rmt_one; bytes_tac|]. rewrite len_app, LS, len_stub_rmt_many. repeat split; try lia.
    apply Forall_app. split; [|exact BS]. unfold rmt_many. bytes_tac.
  - destruct (rd_tmc0 eq_refl) as [Hpf _]. assert (F : at_ f 37 = 1 \/ at_ f 37 = 2 \/ at_ f 37 = 3 \/ at_ f 37 = 4) by lia.
    unfold tmc_code. destruct F as [F|[F|[F|F]]]; rewrite F; destruct (negb (i_songs inf =? 1)); rewrite len_app; unfold tmc_init; cbn [tmc_head tmc_tail Z.eqb Pos.eqb];
    unfold len; cbn [length]; repeat split; try lia; cbn [app]; bytes_tac.
  - destruct (Z.eqb_spec (i_songs inf) 1); [rewrite len_stub_tm2_one; repeat split; try lia; unfold tm2_one; bytes_tac|]. rewrite len_stub_tm2_many. repeat split; try lia. unfold tm2_many. bytes_tac.
Qed.

Lemma data_facts ext f inf : ready ext f inf -> let d := exported_data (i_type inf) ext f in
  0 <= music_start ext f /\ 0 < len d /\ music_start ext f + len d <= 65536 /\ bytes d.
Proof.
  intros R d. destruct R. destruct (exts_types _ _ rd_type0) as (XF & XR & XD & XT & XN).
  assert (B : forall k, bytes (skipn k f)) by (intros k; now apply bytes_skipn).
  split; [rewrite <- rd_start0; lia|].
  destruct (eqb_list ext fc_ext) eqn:Q.
  - apply eqb_list_spec in Q. pose proof (proj1 XF Q) as T. destruct (rd_fc0 T) as [L0 L1]. unfold d. rewrite T. cbn [exported_data]. unfold music_start, music_data. rewrite Q. cbn [eqb_list fc_ext].
    change (eqb_list fc_ext fc_ext) with true. cbv iota. repeat split; try lia. assumption.
  - assert (Nf : ext <> fc_ext) by (intros ->; discriminate Q). destruct (rd_env0 Nf) as [(_ & _ & Env) LF]. cbv zeta in Env.
    assert (W4 : 0 <= file_word f 4 < 65536) by (pose proof (at_byte' f 4 rd_bytes0); pose proof (at_byte' f 5 rd_bytes0); unfold file_word, byte in *; change (4 + 1) with 5; lia).
    assert (L6 : len (skipn 6 f) = len f - 6) by (change (skipn 6 f) with (skipn (Z.to_nat 6) f); rewrite <- (skipn_slice f 6), len_slice by lia; lia).
    assert (MS : music_start ext f = file_word f 2) by (unfold music_start; now rewrite Q). assert (MD : music_data ext f = skipn 6 f) by (unfold music_data; now rewrite Q).
    destruct (eqb_list ext rmt_ext) eqn:QR.
    + apply eqb_list_spec in QR. pose proof (proj1 XR QR) as T. specialize (rd_rmt0 T). unfold d. rewrite T. cbn [exported_data]. rewrite MS.
      rewrite len_slice by (destruct Env; lia). repeat split; try lia. now apply bytes_slice.
    + assert (Nr : ext <> rmt_ext) by (intros ->; discriminate QR). assert (LN : len f = 7 + file_word f 4 - file_word f 2) by (destruct Env as [Env|[Env _]]; [exact Env|contradiction]).
      assert (G : d = skipn 6 f \/ (d = skipn 6 f ++ [0] /\ len f = 11270 /\ file_word f 2 = 8192)).
      { unfold d. destruct (i_type inf) eqn:T; cbn [exported_data]; try (left; exact MD).
        - destruct (Z.eqb_spec (len f) 11270) as [E|E]; [right|left; reflexivity]. split; [reflexivity|]. split; [exact E|]. destruct (rd_dlt0 eq_refl). congruence.
        - exfalso. apply Nr, XR. reflexivity. }
      rewrite MS. destruct G as [-> |(-> & E & M)]; [repeat split; try lia; apply B|]. rewrite len_app. change (len [0]) with 1. repeat split; try lia. apply Forall_app. split; [apply B|bytes_tac].
Qed.

Lemma code_facts ext f inf : ready ext f inf -> let t := i_type inf in let c := i_channels inf in
  0 <= routine_start t c /\ 0 < len (routine_code t c) /\ routine_start t c + len (routine_code t c) <= i_music inf /\ bytes (routine_code t c) /\
  (t = DLT \/ t = MPT \/ t = TMC -> routine_start t c = stub_hi t (i_songs inf)) /\
  (t = RMT \/ t = TM2 -> routine_start t c + len (routine_code t c) <= stub_lo t).
Proof.
  intros R t c. destruct R. destruct (exts_types _ _ rd_type0) as (_ & _ & _ & _ & XN). fold t c in XN, rd_above0.
  destruct (routine_file t c XN) as (_ & _ & LR & L7 & R0 & R1 & _ & SR).
  assert (LC : len (routine_code t c) = len (routine t c) - 6) by (rewrite <- SR, len_slice by lia; lia). unfold routine_start.
  split; [lia|]. split; [lia|]. split; [lia|]. split; [rewrite <- SR; apply bytes_slice, routines_bytes|]. split; intros T.
  - destruct T as [T|[T|T]]; rewrite T; vm_compute; reflexivity.
  - assert (c = 1 \/ c = 2) as C by (unfold c; lia). destruct T as [T|T]; rewrite T.
    + destruct C as [-> | ->]; vm_compute; discriminate.
    + vm_compute; discriminate.
Qed.

Lemma blocks_ok ext f inf : ready ext f inf -> sap_blocks (export_blocks inf ext f) /\ bytes (executable (export_blocks inf ext f)).
Proof.
  intros R. pose proof (data_facts _ _ _ R) as (D0 & D1 & D2 & D3). pose proof (code_facts _ _ _ R) as (C0 & C1 & C2 & C3 & C4 & C5). cbv zeta in *.
  assert (HM : i_music inf <= 65535) by (destruct R; lia). assert (HS : 1 <= i_songs inf <= 32) by (destruct R; lia).
  assert (XN : native (i_type inf) \/ i_type inf = FC) by (destruct R; destruct (exts_types _ _ rd_type0) as (_ & _ & _ & _ & XN); exact XN).
  assert (BB : forall b, proper_block b -> bytes (block_bytes b)).
  { intros [[mk st0] d] (B0 & B1 & B2 & B3 & B4). unfold block_bytes. repeat apply Forall_app_intro || idtac. destruct mk; cbn [app];
    repeat (constructor; [unfold byte; lia|]); exact B3. }
  assert (K : exists rest, export_blocks inf ext f = (false, music_start ext f, exported_data (i_type inf) ext f) :: rest /\ Forall proper_block rest).
  { unfold export_blocks. cbv zeta. eexists. split; [reflexivity|]. fold (stub inf f) (stub_at inf f).
    destruct (i_type inf) eqn:T; try (exfalso; cbn [native In] in XN; intuition discriminate).
    all: try (constructor; [|constructor]; unfold proper_block; repeat split; try assumption; lia).
    all: destruct (stub_facts _ _ _ R ltac:(rewrite T; unfold with_stub; tauto)) as (S0 & S1 & S2 & S3); rewrite T in S0, S1; cbn [stub_lo stub_hi] in *.
    all: try specialize (C4 ltac:(tauto)); try specialize (C5 ltac:(tauto)).
    all: try (constructor; [|constructor]; unfold proper_block; rewrite len_app; repeat split; try lia; apply Forall_app; split; assumption).
    all: constructor; [|constructor; [|constructor]]; unfold proper_block; repeat split; try assumption; try lia.
    all: destruct (i_songs inf =? 1); lia. }
  destruct K as (rest & -> & P). split.
  - cbn [sap_blocks]. split; [reflexivity|]. split; [unfold placed_block; auto|exact P].
  - cbn [executable flat_map]. apply Forall_app. split.
    + unfold block_bytes. cbn [app]. repeat (constructor; [unfold byte; lia|]). exact D3.
    + clear - P BB. induction P as [|b l Hb _ IH]; [constructor|]. cbn [flat_map]. apply Forall_app. split; [now apply BB|exact IH].
Qed.

(* the memory *)
Lemma export_memory ext f inf m : ready ext f inf -> (forall a, 0 <= a < 65536 -> m a = load (fun _ => 0) (export_blocks inf ext f) a) ->
  (with_stub (i_type inf) -> forall i, 0 <= i < len (stub inf f) -> m (stub_at inf f + i) = at_ (stub inf f) i) /\
  (forall i, 0 <= i < len (routine_code (i_type inf) (i_channels inf)) -> m (routine_start (i_type inf) (i_channels inf) + i) = at_ (routine_code (i_type inf) (i_channels inf)) i) /\
  (forall a, 0 <= a < 65536 -> ~ stub_lo (i_type inf) <= a < stub_hi (i_type inf) (i_songs inf) -> music_start ext f <= a -> m a =
     if a <? music_start ext f + len (exported_data (i_type inf) ext f) then at_ (exported_data (i_type inf) ext f) (a - music_start ext f) else 0) /\
  (forall a, 0 <= a < music_start ext f -> ~ stub_lo (i_type inf) <= a < stub_hi (i_type inf) (i_songs inf) ->
     ~ routine_start (i_type inf) (i_channels inf) <= a < routine_start (i_type inf) (i_channels inf) + len (routine_code (i_type inf) (i_channels inf)) -> m a = 0).
Proof.
  intros R Hm. pose proof (data_facts _ _ _ R) as (D0 & D1 & D2 & D3). pose proof (code_facts _ _ _ R) as (C0 & C1 & C2 & C3 & C4 & C5). cbv zeta in *.
  assert (HM : i_music inf <= 65535 /\ i_music inf = music_start ext f) by (destruct R; split; [lia|assumption]). assert (HS : 1 <= i_songs inf <= 32) by (destruct R; lia).
  assert (XN : native (i_type inf) \/ i_type inf = FC) by (destruct R; destruct (exts_types _ _ rd_type0) as (_ & _ & _ & _ & XN); exact XN).
  unfold export_blocks in Hm. cbv zeta in Hm. fold (stub inf f) (stub_at inf f) in Hm.
  pose proof (stub_facts _ _ _ R) as SF. unfold with_stub in *.
  set (d := exported_data (i_type inf) ext f) in *. set (rc := routine_code (i_type inf) (i_channels inf)) in *. set (rs := routine_start (i_type inf) (i_channels inf)) in *.
  set (sc := stub inf f) in *. set (sa := stub_at inf f) in *. set (ms := music_start ext f) in *.
  assert (SH : stub_hi (i_type inf) (i_songs inf) < 65536) by (destruct (i_type inf); cbn [stub_hi]; try lia; destruct (_ =? 1); lia).
  (* three shapes *)
  assert (Sh : (forall a, 0 <= a < 65536 -> m a = if (rs <=? a) && (a <=? rs + len rc - 1) then at_ rc (a - rs)
                 else if (ms <=? a) && (a <=? ms + len d - 1) then at_ d (a - ms) else 0) /\ ~ (i_type inf = DLT \/ i_type inf = MPT \/ i_type inf = RMT \/ i_type inf = TMC \/ i_type inf = TM2) /\ stub_lo (i_type inf) = 0 /\ stub_hi (i_type inf) (i_songs inf) = 0
       \/ (forall a, 0 <= a < 65536 -> m a = if (sa <=? a) && (a <? sa + len sc) then at_ sc (a - sa) else if (rs <=? a) && (a <=? rs + len rc - 1) then at_ rc (a - rs)
                 else if (ms <=? a) && (a <=? ms + len d - 1) then at_ d (a - ms) else 0) /\
          (stub_lo (i_type inf) <= sa /\ sa + len sc = stub_hi (i_type inf) (i_songs inf) /\ 0 < len sc /\ 0 <= stub_lo (i_type inf)) /\ (rs = sa + len sc \/ rs + len rc <= sa)).
  { destruct (i_type inf) eqn:T; try (exfalso; cbn [native In] in XN; intuition discriminate).
    all: try (left; split; [exact Hm|]; split; [intuition discriminate|split; reflexivity]).
    all: right; destruct (SF ltac:(tauto)) as (S0 & S1 & S2 & S3); cbn [load] in Hm.
    all: split; [|split; [cbn [stub_lo] in *; lia|first [left; rewrite S1; apply C4; tauto|right; specialize (C5 ltac:(tauto)); lia]]].
    all: intros a Ha; rewrite Hm by lia.
    all: try (specialize (C4 ltac:(tauto)); rewrite len_app; destruct ((sa <=? a) && (a <? sa + len sc)) eqn:Q1;
       [replace ((sa <=? a) && (a <=? sa + (len sc + len rc) - 1)) with true by lia; apply at_app1; lia|];
       destruct ((rs <=? a) && (a <=? rs + len rc - 1)) eqn:Q2; [replace ((sa <=? a) && (a <=? sa + (len sc + len rc) - 1)) with true by lia; rewrite at_app2 by lia; f_equal; lia|];
       replace ((sa <=? a) && (a <=? sa + (len sc + len rc) - 1)) with false by lia; reflexivity).
    all: specialize (C5 ltac:(tauto)); destruct ((sa <=? a) && (a <? sa + len sc)) eqn:Q1;
       [replace ((rs <=? a) && (a <=? rs + len rc - 1)) with false by lia; replace ((sa <=? a) && (a <=? sa + len sc - 1)) with true by lia; reflexivity|];
       replace ((sa <=? a) && (a <=? sa + len sc - 1)) with false by lia; reflexivity. }
  clear Hm. destruct Sh as [(Hm & Ns & Z1 & Z2)|(Hm & (S0 & S1 & S2 & S3) & S4)].
  - split; [intros T; contradiction|]. rewrite Z1, Z2. split; [|split].
    + intros i Hi. rewrite Hm by lia. replace ((rs <=? rs + i) && (rs + i <=? rs + len rc - 1)) with true by lia. f_equal. lia.
    + intros a Ha _ Ham. rewrite Hm by lia. replace ((rs <=? a) && (a <=? rs + len rc - 1)) with false by lia.
      replace (ms <=? a) with true by lia. cbn [andb]. destruct (Z.ltb_spec a (ms + len d)); [replace (a <=? ms + len d - 1) with true by lia|replace (a <=? ms + len d - 1) with false by lia]; reflexivity.
    + intros a Ha _ Nr. rewrite Hm by lia. replace ((rs <=? a) && (a <=? rs + len rc - 1)) with false by lia. replace (ms <=? a) with false by lia. reflexivity.
  - split; [|split; [|split]].
    + intros _ i Hi. rewrite Hm by lia. replace ((sa <=? sa + i) && (sa + i <? sa + len sc)) with true by lia. f_equal. lia.
    + intros i Hi. rewrite Hm by lia. replace ((sa <=? rs + i) && (rs + i <? sa + len sc)) with false by lia. replace ((rs <=? rs + i) && (rs + i <=? rs + len rc - 1)) with true by lia. f_equal. lia.
    + intros a Ha Ns Ham. rewrite Hm by lia. replace ((sa <=? a) && (a <? sa + len sc)) with false by lia. replace ((rs <=? a) && (a <=? rs + len rc - 1)) with false by lia.
      replace (ms <=? a) with true by lia. cbn [andb]. destruct (Z.ltb_spec a (ms + len d)); [replace (a <=? ms + len d - 1) with true by lia|replace (a <=? ms + len d - 1) with false by lia]; reflexivity.
    + intros a Ha Ns Nr. rewrite Hm by lia. replace ((sa <=? a) && (a <? sa + len sc)) with false by lia. replace ((rs <=? a) && (a <=? rs + len rc - 1)) with false by lia. replace (ms <=? a) with false by lia. reflexivity.
Qed.
