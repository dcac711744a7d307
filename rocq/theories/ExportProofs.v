(* Native modules exported as SAP: the file, and what loading it gives *)
From Coq Require Import String.
From Verif Require Import Base BaseFacts Loop MemModel InfoModel InfoSpec InfoProofs NativeModel WindowSpec NativeSpec NativeProofs NativeLoadProofs WriterModel WriteModel WriterProofs SapSpec SapWriteProofs SapLoadProofs FlashFile SaveProofs Resources
  FlashSpec LoadSpec MoveSpec PokeyModel MachineModel PlayModel LoadProofs CpuSpec CpuProofs CpuFacts CallSpec ExportSpec ExportStub.

(* ---- the information written in the header ---- *)
Definition export_info (t : module_type) (init player : Z) (inf : info) : info := set_headerLen 5 (set_player player (set_init init (set_type t inf))).
Definition dummy : list Z := [0; 0; 0; 0; 0; 255; 255; 0; 0; 0; 0; 0; 0].

Lemma edited_export t init player i j : edited i j -> edited (export_info t init player i) (export_info t init player j).
Proof.
  intros He. induction He as [i|i j v b k He IH E|i j v b k He IH E|i j v b k He IH E|i j song b k He IH E
     |i j song d b k He IH E|i j song l b k He IH E|i j ntsc k He IH E|i j v b k He IH E]; [apply EdNone|..].
  - eapply (EdAuthor _ _ v); [exact IH|]. unfold api_set_author in *. destruct (check_valid_text v); injection E as <- <-; reflexivity.
  - eapply (EdTitle _ _ v); [exact IH|]. unfold api_set_title in *. destruct (check_valid_text v); injection E as <- <-; reflexivity.
  - eapply (EdDate _ _ v); [exact IH|]. unfold api_set_date in *. destruct (check_valid_text v); injection E as <- <-; reflexivity.
  - eapply (EdDefaultSong _ _ song); [exact IH|]. unfold api_set_default_song in *. change (i_songs (export_info t init player j)) with (i_songs j). destruct (_ || _); injection E as <- <-; reflexivity.
  - eapply (EdDuration _ _ song d); [exact IH|]. unfold api_set_duration in *. change (i_songs (export_info t init player j)) with (i_songs j). destruct (_ || _); [injection E as <- <-; reflexivity|].
    change (i_durations (export_info t init player j)) with (i_durations j). destruct (set_nth _ _ _); try discriminate. injection E as <- <-. reflexivity.
  - eapply (EdLoop _ _ song l); [exact IH|]. unfold api_set_loop in *. change (i_songs (export_info t init player j)) with (i_songs j). destruct (_ || _); [injection E as <- <-; reflexivity|].
    change (i_loops (export_info t init player j)) with (i_loops j). destruct (set_nth _ _ _); try discriminate. injection E as <- <-. reflexivity.
  - eapply (EdNtsc _ _ ntsc); [exact IH|]. unfold api_set_ntsc in *. change (i_songs (export_info t init player j)) with (i_songs j). change (i_durations (export_info t init player j)) with (i_durations j).
    destruct (_ <? _); [discriminate|]. injection E as <-. reflexivity.
  - eapply (EdMusic _ _ v); [exact IH|]. unfold api_set_music_address in *. destruct (_ || _); injection E as <- <-; reflexivity.
Qed.

Lemma edited_keeps i j : edited i j -> i_type j = i_type i /\ i_channels j = i_channels i /\ i_songs j = i_songs i /\ i_songPos j = i_songPos i /\ i_covox j = i_covox i.
Proof.
  intros He. induction He as [i|i j v b k He IH E|i j v b k He IH E|i j v b k He IH E|i j song b k He IH E
     |i j song d b k He IH E|i j song l b k He IH E|i j ntsc k He IH E|i j v b k He IH E]; [tauto|..]; destruct IH as (<- & <- & <- & <- & <-).
  - unfold api_set_author in E. destruct (check_valid_text v); injection E as <- <-; repeat split.
  - unfold api_set_title in E. destruct (check_valid_text v); injection E as <- <-; repeat split.
  - unfold api_set_date in E. destruct (check_valid_text v); injection E as <- <-; repeat split.
  - unfold api_set_default_song in E. destruct (_ || _); injection E as <- <-; repeat split.
  - unfold api_set_duration in E. destruct (_ || _); [injection E as <- <-; repeat split|]. destruct (set_nth _ _ _); try discriminate. injection E as <- <-. repeat split.
  - unfold api_set_loop in E. destruct (_ || _); [injection E as <- <-; repeat split|]. destruct (set_nth _ _ _); try discriminate. injection E as <- <-. repeat split.
  - unfold api_set_ntsc in E. destruct (_ <? _); [discriminate|]. injection E as <-. repeat split.
  - unfold api_set_music_address in E. destruct (_ || _); injection E as <- <-; repeat split.
Qed.

Lemma native_exportable t init player inf : native_loaded inf -> 1 <= i_songs inf -> (t = SAP_B /\ 0 <= init <= 65535 \/ t = SAP_C /\ init = -1) -> 0 <= player <= 65535 -> sap_editable dummy (export_info t init player inf).
Proof.
  intros N S1 T P. destruct N. unfold export_info. split; cbn [set_headerLen set_player set_init set_type i_songs i_defsong i_fastplay i_channels i_covox i_music i_init i_player i_type i_durations i_loops i_author i_title i_date i_headerLen].
  - lia.
  - lia.
  - cbn [In] in nl_fastplay. lia.
  - lia.
  - left. assumption.
  - unfold addr_or_none. lia.
  - unfold addr_or_none. lia.
  - unfold addr_or_none. lia.
  - destruct T as [[-> T]|[-> T]]; lia.
  - destruct nl_durations as (kn & -> & L & _). rewrite len_app, L. unfold len. rewrite repeat_length. lia.
  - assumption.
  - rewrite nl_author. constructor.
  - destruct nl_title as [_ H]. eapply Forall_impl; [|exact H]. unfold meta_char, sap_char. intros; lia.
  - rewrite nl_date. constructor.
  - repeat split; vm_compute; try reflexivity; discriminate.
Qed.

(* the header written for an exported module *)
Lemma emits_export_header t init player inf : sap_editable dummy (export_info t init player inf) ->
  emits (write_executable_header false inf (type_letter (export_info t init player inf)) init player) (sap_header_text (export_info t init player inf)).
Proof.
  intros H. destruct H. unfold write_executable_header.
  eapply emits_eq; [apply emits_sap_header|].
  - split; [|split]; apply sap_chars_bytes; assumption.
  - cbn [export_info set_headerLen set_player set_init set_type i_songs] in *. lia.
  - cbn [export_info set_headerLen set_player set_init set_type i_songs i_defsong] in *. lia.
  - cbn [export_info set_headerLen set_player set_init set_type i_fastplay] in *. lia.
  - unfold type_letter, api_get_type_letter. destruct (i_type _); lia.
  - cbn [export_info set_headerLen set_player set_init set_type i_songs i_durations] in *. lia.
  - cbn [export_info set_headerLen set_player set_init set_type i_songs i_loops] in *. lia.
  - reflexivity.
Qed.

(* saving, then loading *)
Lemma export_loads t init player inf module bs out tag w w' :
  sap_editable dummy (export_info t init player inf) ->
  i_author inf <> unknown_text -> i_title inf <> unknown_text -> i_date inf <> unknown_text ->
  Forall (fun d => d < 6000000) (firstn (known_songs inf) (i_durations inf)) ->
  emits (write_executable false inf module) (sap_file (sap_header_text (export_info t init player inf)) bs) -> sap_blocks bs -> bytes (executable bs) ->
  named out sap_ext -> wf w -> api_write out inf module tag w = Ok (true, w') ->
  forall fuel s name, named name sap_ext -> len (i_songPos (m_info s)) = 32 ->
  exists s', asap_load fuel (Some name) (written w w') s = Ok s' /\ sap_same (export_info t init player inf) (m_info s') /\
    forall a, 0 <= a < 65536 -> ld (m_memory s') a = load (fun _ => 0) bs a.
Proof.
  intros He N1 N2 N3 N4 Hem Hbs Hby Ho Hw Ew fuel s name Hn Hp. set (X := export_info t init player inf) in *.
  rewrite write_sap in Ew by exact Ho. destruct (emits_ok _ _ _ _ Hem Hw Ew) as [-> Hroom]. rewrite (written_put _ _ Hw Hroom).
  pose proof (editable_savable dummy X He N1 N2 N3 N4) as Hsv.
  destruct (load_sap fuel (m_info s) name (sap_file (sap_header_text X) bs) Hn) as [n EL].
  assert (L7 : 7 <= len ([255; 255] ++ executable bs)).
  { rewrite len_app. change (len [255; 255]) with 2. destruct bs as [|b rest]; [contradiction|]. cbn [executable flat_map]. rewrite len_app. pose proof (len_nonneg (flat_map block_bytes rest)).
    destruct b as [[mk st0] d]. destruct Hbs as (-> & P & _). pose proof (len_block_pos (false, st0, d) P). lia. }
  destruct (parse_sap_written dummy X (set_filename n (m_info s)) ([255; 255] ++ executable bs) Hsv L7 eq_refl eq_refl) as (inf3 & E3 & S3 & L3).
  fold (sap_header_text X) in E3, L3. change (sap_header_text X ++ [255; 255] ++ executable bs) with (sap_file (sap_header_text X) bs) in E3. rewrite E3 in EL.
  assert (By : bytes (sap_file (sap_header_text X) bs)).
  { unfold sap_file. apply Forall_app. split; [|apply Forall_app; split; [repeat constructor; unfold byte; lia|exact Hby]].
    pose proof (header_text_ascii X dummy He) as F. eapply Forall_impl; [|exact F]. unfold byte. intros; lia. }
  assert (ST : sap_type (i_type inf3)).
  { rewrite (ss_module_type _ _ S3). pose proof (se_type _ _ He) as T. destruct (i_type X); try contradiction; cbn; tauto. }
  destruct (sap_loads fuel (Some name) (sap_header_text X) bs s inf3 By Hp EL ST L3 Hbs) as (s' & E' & I' & M'). exists s'. split; [exact E'|]. rewrite I'. split; [exact S3|exact M'].
Qed.

(* ---- the blocks ---- *)
Definition cmc_family (t : module_type) : bool := match t with CMC | CM3 | CMR | CMS => true | _ => false end.
Definition export_type (t : module_type) : module_type := if cmc_family t then SAP_C else SAP_B.
Definition export_init (t : module_type) (songs pf : Z) : Z :=
  match t with
  | DLT => if songs =? 1 then 1019 else 1017
  | MPT => if songs =? 1 then 1267 else 1263
  | RMT => 3200 | TMC => tmc_init (negb (songs =? 1)) pf | TM2 => 4992 | FC => 1024 | _ => -1
  end.
Definition export_player (t : module_type) (pf : Z) : Z :=
  match t with DLT | MPT => 1283 | RMT => 1539 | TMC => tmc_player pf | TM2 => 2051 | FC => 1027 | _ => 1280 end.
Definition stub_code (t : module_type) (songs : Z) (pos : list Z) (lo hi pf : Z) : list Z :=
  match t with
  | DLT => if songs =? 1 then dlt_one else pos ++ dlt_many (1017 - songs)
  | MPT => if songs =? 1 then mpt_one lo hi else pos ++ mpt_many (1263 - songs) lo hi
  | RMT => if songs =? 1 then rmt_one lo hi else rmt_many lo hi ++ pos
  | TMC => tmc_code (negb (songs =? 1)) lo hi pf
  | TM2 => if songs =? 1 then tm2_one lo hi else tm2_many lo hi
  | _ => []
  end.
Definition stub_start (t : module_type) (songs pf : Z) : Z :=
  match t with
  | DLT => if songs =? 1 then 1019 else 1017 - songs
  | MPT => if songs =? 1 then 1267 else 1263 - songs
  | RMT => 3200 | TMC => tmc_init (negb (songs =? 1)) pf | TM2 => 4992 | _ => 0
  end.
Definition exported_data (t : module_type) (ext f : list Z) : list Z :=
  match t with
  | DLT => if len f =? 11270 then skipn 6 f ++ [0] else skipn 6 f
  | RMT => slice f 6 (7 + file_word f 4 - file_word f 2)
  | _ => music_data ext f
  end.
Definition export_blocks (inf : info) (ext f : list Z) : list block :=
  let t := i_type inf in let c := i_channels inf in let m := i_music inf in
  let stub := stub_code t (i_songs inf) (slice (i_songPos inf) 0 (i_songs inf)) (low8 m) (high8 m) (at_ f 37) in
  let start := stub_start t (i_songs inf) (at_ f 37) in
  (false, music_start ext f, exported_data t ext f) ::
  match t with
  | DLT | MPT | TMC => [(false, start, stub ++ routine_code t c)]
  | RMT | TM2 => [(false, start, stub); (false, routine_start t c, routine_code t c)]
  | _ => [(false, routine_start t c, routine_code t c)]
  end.

Lemma emits_word' v : 0 <= v < 65536 -> emits (write_word v) (word v).
Proof. intros H. eapply emits_eq; [apply emits_word|now apply u8_word]. Qed.
Lemma emits_byte' v : 0 <= v < 256 -> emits (write_byte v) [v].
Proof. intros H. eapply emits_eq; [apply emits_byte|]. now rewrite u8_small by lia. Qed.
Lemma emits_low m : emits (write_byte (Z.land m 255)) [low8 m].
Proof. rewrite land_255. unfold low8. apply emits_byte'. lia. Qed.
Lemma emits_high m : 0 <= m <= 65535 -> emits (write_byte (Z.shiftr m 8)) [high8 m].
Proof. intros H. rewrite Z.shiftr_div_pow2 by lia. change (2 ^ 8) with 256. unfold high8. apply emits_byte'. lia. Qed.

Lemma routines_bytes t c : bytes (routine t c).
Proof.
  assert (X : forallb bytesb [res_cmc_obx; res_cm3_obx; res_cmr_obx; res_cms_obx; res_dlt_obx; res_mpt_obx; res_rmt4_obx; res_rmt8_obx; res_tmc_obx; res_tm2_obx; res_fc_obx] = true)
    by (vm_compute; reflexivity).
  rewrite forallb_forall in X. destruct t; cbn [routine]; try (destruct (c =? 1)); try (apply bytesb_spec, X; cbn [In]; tauto); constructor.
Qed.

(* the part of a file from an address to the end, in one block *)
Lemma file_block f n : bytes f -> 6 < n <= len f -> n = 7 + file_word f 4 - file_word f 2 -> slice f 2 n = block_bytes (false, file_word f 2, slice f 6 n).
Proof.
  intros Hb Hn E. unfold block_bytes. cbn [app]. rewrite len_slice by lia. replace (file_word f 2 + (n - 6) - 1) with (file_word f 4) by lia.
  rewrite <- (word_of_word f 2), <- (word_of_word f 4) by (try assumption; lia). change (2 + 2) with 4. change (4 + 2) with 6.
  rewrite app_assoc. rewrite !slice_cat by lia. reflexivity.
Qed.

Definition r_start (r : list Z) := file_word r 2.
Definition r_last (r : list Z) := file_word r 4.
Lemma routine_file t c : native t \/ t = FC -> let r := routine t c in
  get_word r 2 = Ok (file_word r 2) /\ get_word r 4 = Ok (file_word r 4) /\ len r = file_word r 4 - file_word r 2 + 7 /\ 6 < len r /\
  0 <= file_word r 2 /\ file_word r 4 < 65536 /\ slice r 2 (len r) = block_bytes (false, routine_start t c, routine_code t c) /\ slice r 6 (len r) = routine_code t c.
Proof.
  intros H r. pose proof (routine_facts t c H) as RF. fold r in RF. unfold routine_ok in RF. pose proof (routines_bytes t c) as Hb. fold r in Hb.
  assert (S6 : slice r 6 (len r) = routine_code t c) by (rewrite skipn_slice by lia; reflexivity).
  split; [apply get_word_ok; lia|]. split; [apply get_word_ok; lia|]. split; [lia|]. split; [lia|]. split; [lia|]. split; [lia|].
  split; [|exact S6]. rewrite (file_block r (len r) Hb) by lia. rewrite S6. reflexivity.
Qed.

Ltac emit := match goal with
  | |- emits (wseqs _) _ => eapply emits_seqs
  | |- emits_all (_ :: _) _ => eapply ea_cons
  | |- emits_all [] _ => apply ea_nil
  | |- emits (write_byte (Z.land _ 255)) _ => apply emits_low
  | |- emits (write_byte (Z.shiftr _ 8)) _ => apply emits_high; lia
  | |- emits (write_byte _) _ => apply emits_byte'; lia
  | |- emits (write_word _) _ => apply emits_word'; lia
  | |- emits wok _ => apply emits_wok
  | |- emits (wseq _ _) _ => eapply emits_seq
  end.

(* what is written after the header, for each type *)
Section Emit.
Variable ext f : list Z.
Variable inf : info.
Hypothesis Hf : bytes f.
Hypothesis HM : 0 <= i_music inf <= 65535.
Hypothesis HS : 1 <= i_songs inf <= 32.
Hypothesis HP : len (i_songPos inf) = 32.
Hypothesis HE : i_music inf = music_start ext f.
Hypothesis L6 : ext <> fc_ext -> enveloped ext f /\ 6 < len f.
Let t := i_type inf.
Let X := export_info (export_type t) (export_init t (i_songs inf) (at_ f 37)) (export_player t (at_ f 37)) inf.
Hypothesis HX : sap_editable dummy X.
Let bs := export_blocks inf ext f.
Let r := routine t (i_channels inf).
Hypothesis HQ : file_word r 4 < i_music inf.

Lemma begin : native t \/ t = FC -> forall l, emits (write_executable_native false inf f r (file_word r 2) (file_word r 4)) l -> emits (write_executable false inf f) l.
Proof.
  intros Ht l He. destruct (routine_file t (i_channels inf) Ht) as (E1 & E2 & _). fold r in E1, E2.
  unfold write_executable. rewrite (routine_player inf Ht). fold t r. eapply emits_bind; [exact E1|]. eapply emits_bind; [exact E2|].
  replace (i_music inf <=? file_word r 4) with false by lia. exact He.
Qed.

Lemma emit_cmc : cmc_family t = true -> ext <> fc_ext -> ext <> rmt_ext -> emits (write_executable false inf f) (sap_file (sap_header_text X) bs).
Proof.
  intros Ht Ef Er. assert (N : native t \/ t = FC) by (left; destruct t; try discriminate Ht; cbn; tauto). apply (begin N).
  destruct (routine_file t (i_channels inf) N) as (_ & _ & LR & L7 & R0 & R1 & SR & _). fold r in LR, SR, L7, R0, R1.
  destruct (L6 Ef) as [(_ & _ & Env) LF]. cbv zeta in Env. assert (LN : len f = 7 + file_word f 4 - file_word f 2) by (destruct Env as [Env|[Env _]]; [exact Env|contradiction]).
  assert (H1 : emits (write_executable_header false inf 67 (-1) (file_word r 2)) (sap_header_text X)).
  { pose proof (emits_export_header _ _ _ _ HX) as H1. unfold X, export_type in H1. rewrite Ht in H1. cbn [export_info set_headerLen set_player set_init set_type i_type type_letter] in H1.
    replace (file_word r 2) with (export_player t (at_ f 37)) by (unfold r; destruct t; try discriminate Ht; vm_compute; reflexivity).
    replace (-1) with (export_init t (i_songs inf) (at_ f 37)) by (destruct t; try discriminate Ht; reflexivity).
    unfold X, export_type. rewrite Ht. exact H1. }
  unfold write_executable_native.
  match goal with |- emits (match _ with SAP_B => ?a | SAP_C => _ | SAP_D => _ | SAP_S => _ | CMC => ?b | CM3 => _ | CMR => _ | CMS => _ | DLT => _ | MPT => _ | RMT => _ | TMC => _ | TM2 => _ | FC => _ end) _ =>
    enough (G : emits b (sap_file (sap_header_text X) bs)) by (fold t; destruct t; try discriminate Ht; exact G) end.
  eapply emits_eq.
  - emit. emit; [exact H1|]. emit; [apply (emits_word' 65535); lia|]. emit; [apply emits_bytes; lia|]. emit; [apply emits_bytes; lia|]. emit; [apply emits_wok|]. emit.
  - rewrite !app_nil_r. change (word 65535) with [255; 255]. rewrite (file_block f (len f) Hf) by lia.
    rewrite skipn_slice by lia. replace (file_word r 4 - file_word r 2 + 7) with (len r) by lia. rewrite SR.
    unfold sap_file, bs, export_blocks. fold t.
    assert (E : exported_data t ext f = skipn (Z.to_nat 6) f /\ music_start ext f = file_word f 2).
    { unfold music_start. destruct (eqb_list ext fc_ext) eqn:Q; [apply eqb_list_spec in Q; contradiction|]. split; [|reflexivity].
      destruct t; try discriminate Ht; cbn [exported_data]; unfold music_data; rewrite Q; reflexivity. }
    destruct E as [-> ->]. destruct t; try discriminate Ht; cbn [executable flat_map]; rewrite app_nil_r; reflexivity.
Qed.

Lemma head_b init player : cmc_family t = false -> init = export_init t (i_songs inf) (at_ f 37) -> player = export_player t (at_ f 37) ->
  emits (write_executable_header false inf 66 init player) (sap_header_text X).
Proof.
  intros Ht -> ->. pose proof (emits_export_header _ _ _ _ HX) as H1. unfold X, export_type in H1 |- *. rewrite Ht in H1 |- *. exact H1.
Qed.

Hypothesis Mark : at_ f 0 = 255 /\ at_ f 1 = 255.

Lemma whole_file n : ext <> fc_ext -> n = 7 + file_word f 4 - file_word f 2 -> 6 < n <= len f -> slice f 0 n = [255; 255] ++ block_bytes (false, file_word f 2, slice f 6 n).
Proof.
  intros Ef En Ln. rewrite <- (slice_cat f 0 2 n) by lia. rewrite (file_block f n Hf) by lia. f_equal. destruct Mark as [M0 M1].
  rewrite slice_cons by lia. change (0 + 1) with 1. rewrite slice_cons by lia. change (1 + 1) with 2. rewrite slice_nil. congruence.
Qed.

Lemma not_fc : ext <> fc_ext -> music_start ext f = file_word f 2 /\ music_data ext f = skipn 6 f.
Proof. intros H. unfold music_start, music_data. destruct (eqb_list ext fc_ext) eqn:Q; [apply eqb_list_spec in Q; contradiction|]. auto. Qed.

(* the file without RMT names *)
Lemma one_block : ext <> fc_ext -> ext <> rmt_ext -> len f = 7 + file_word f 4 - file_word f 2 /\ slice f 6 (len f) = skipn 6 f.
Proof.
  intros Ef Er. destruct (L6 Ef) as [(_ & _ & Env) LF]. cbv zeta in Env. split; [|now rewrite skipn_slice by lia]. destruct Env as [Env|[Env _]]; [exact Env|contradiction].
Qed.


Lemma block_eq start last data : last = start + len data - 1 -> word start ++ word last ++ data = block_bytes (false, start, data).
Proof. intros ->. reflexivity. Qed.
Lemma len_stub_dlt_many s : len (dlt_many s) = 7. Proof. reflexivity. Qed.
Lemma len_stub_mpt_many s lo hi : len (mpt_many s lo hi) = 17. Proof. reflexivity. Qed.
Lemma len_stub_mpt_one lo hi : len (mpt_one lo hi) = 13. Proof. reflexivity. Qed.
Lemma len_stub_rmt_many lo hi : len (rmt_many lo hi) = 11. Proof. reflexivity. Qed.
Lemma len_stub_rmt_one lo hi : len (rmt_one lo hi) = 9. Proof. reflexivity. Qed.
Lemma len_stub_tm2_many lo hi : len (tm2_many lo hi) = 17. Proof. reflexivity. Qed.
Lemma len_stub_tm2_one lo hi : len (tm2_one lo hi) = 15. Proof. reflexivity. Qed.
Ltac lens := rewrite ?len_app, ?len_stub_mpt_many, ?len_stub_mpt_one, ?len_stub_rmt_many, ?len_stub_rmt_one, ?len_stub_tm2_many, ?len_stub_tm2_one, ?len_stub_dlt_many, ?len_slice by lia.

Ltac norm := unfold sap_file, bs, export_blocks; fold t.
Ltac start_type Ht Ef Er s e init player :=
  assert (N : native t \/ t = FC) by (left; rewrite Ht; cbn; tauto); apply (begin N);
  destruct (routine_file t (i_channels inf) N) as (_ & _ & LR & L7 & R0 & R1 & SB & SR); fold r in LR, SB, SR, L7, R0, R1;
  assert (LC : len (routine_code t (i_channels inf)) = len r - 6) by (rewrite <- SR, len_slice by lia; lia);
  destruct (not_fc Ef) as [MS MD]; destruct (L6 Ef) as [_ LF];
  assert (Q : file_word r 2 = s /\ file_word r 4 = e) by (unfold r; rewrite Ht; try match goal with C : i_channels inf = _ |- _ => rewrite C end; vm_compute; auto); destruct Q as [Q2 Q4];
  unfold write_executable_native; fold t; rewrite Ht; rewrite Q2, Q4 in *; cbv zeta; unfold song_pos_start, song_pos_init;
  norm; rewrite Ht; unfold stub_code, stub_start, exported_data; rewrite Ht in SR, SB, LC; rewrite MS, ?MD;
  pose proof (head_b init player) as HB; rewrite Ht in HB; specialize (HB eq_refl eq_refl eq_refl); cbn [export_init] in HB.

Lemma emit_mpt : t = MPT -> ext <> fc_ext -> ext <> rmt_ext -> emits (write_executable false inf f) (sap_file (sap_header_text X) bs).
Proof.
  intros Ht Ef Er. start_type Ht Ef Er 1280 3506 (export_init t (i_songs inf) (at_ f 37)) 1283.
  destruct (one_block Ef Er) as [LN S6]. rewrite <- S6.
  destruct (i_songs inf =? 1) eqn:ES; cbn [negb wif] in *; (eapply emits_eq; [repeat emit; first [exact HB|apply emits_bytes; lia]|]);
  rewrite (whole_file (len f)) by (auto; lia); cbn [executable flat_map]; rewrite !app_nil_r, <- !app_assoc; do 2 f_equal; f_equal;
  replace (3506 - 1280 + 7) with (len r) by lia; rewrite SR.
  - rewrite <- (block_eq 1267 3506) by (lens; lia). reflexivity.
  - rewrite <- (block_eq (1263 - i_songs inf) 3506) by (lens; lia). rewrite <- ?app_assoc. reflexivity.
Qed.

Lemma emit_dlt : t = DLT -> ext <> fc_ext -> ext <> rmt_ext -> (len f = 11270 -> i_music inf = 8192) -> emits (write_executable false inf f) (sap_file (sap_header_text X) bs).
Proof.
  intros Ht Ef Er HD. start_type Ht Ef Er 1024 3142 (export_init t (i_songs inf) (at_ f 37)) 1283.
  destruct (one_block Ef Er) as [LN S6].
  assert (Music : emits (if len f =? 11270 then wseqs [write_bytes f 0 4; write_word 19456; write_bytes f 6 (len f); write_byte 0] else write_bytes f 0 (len f))
     ([255; 255] ++ block_bytes (false, file_word f 2, if len f =? 11270 then skipn 6 f ++ [0] else skipn 6 f))).
  { rewrite <- S6. destruct (Z.eqb_spec (len f) 11270) as [E|E].
    - eapply emits_eq; [repeat emit; apply emits_bytes; lia|]. assert (E0 : slice f 0 4 = [255; 255] ++ word (file_word f 2)).
      { rewrite <- (slice_cat f 0 2 4), <- (word_of_word f 2) by (try assumption; lia). f_equal. rewrite slice_cons by lia. change (0 + 1) with 1. rewrite slice_cons by lia. change (1 + 1) with 2.
        rewrite slice_nil. destruct Mark as [-> ->]. reflexivity. }
      rewrite E0, app_nil_r, <- !app_assoc. f_equal. apply block_eq. specialize (HD E). rewrite HE, MS in HD. rewrite len_app, len_slice by lia. change (len [0]) with 1. lia.
    - rewrite <- (whole_file (len f)) by (auto; lia). apply emits_bytes; lia. }
  destruct (i_songs inf =? 1) eqn:ES; cbn [negb wif] in *; (eapply emits_eq; [repeat emit; first [exact HB|exact Music|apply emits_bytes; lia]|]);
  cbn [executable flat_map]; rewrite !app_nil_r, <- !app_assoc; do 2 f_equal; f_equal;
  replace (3142 - 1024 + 7) with (len r) by lia; rewrite SR.
  - rewrite <- (block_eq 1019 3142) by (lens; change (len dlt_one) with 5; lia). reflexivity.
  - rewrite <- (block_eq (1017 - i_songs inf) 3142) by (lens; lia). rewrite <- ?app_assoc. reflexivity.
Qed.

Lemma emit_tm2 : t = TM2 -> ext <> fc_ext -> ext <> rmt_ext -> emits (write_executable false inf f) (sap_file (sap_header_text X) bs).
Proof.
  intros Ht Ef Er. start_type Ht Ef Er 1280 4971 4992 2051.
  destruct (one_block Ef Er) as [LN S6]. rewrite <- S6.
  destruct (i_songs inf =? 1) eqn:ES; cbn [negb wif] in *; unfold write_pla_tax_lda0; (eapply emits_eq; [repeat emit; first [exact HB|apply emits_bytes; lia]|]);
  rewrite (whole_file (len f)) by (auto; lia); cbn [executable flat_map]; rewrite !app_nil_r, <- !app_assoc; do 2 f_equal; f_equal;
  replace (4971 - 1280 + 7) with (len r) by lia; rewrite SB.
  - rewrite <- (block_eq 4992 5006) by (lens; lia). reflexivity.
  - rewrite <- (block_eq 4992 5008) by (lens; lia). reflexivity.
Qed.

Lemma emit_tmc : t = TMC -> 1 <= at_ f 37 <= 4 -> 37 < len f -> ext <> fc_ext -> ext <> rmt_ext -> emits (write_executable false inf f) (sap_file (sap_header_text X) bs).
Proof.
  intros Ht Hpf L37 Ef Er. start_type Ht Ef Er 1280 3944 (export_init t (i_songs inf) (at_ f 37)) (export_player t (at_ f 37)). cbn [export_player] in HB.
  destruct (one_block Ef Er) as [LN S6]. rewrite <- S6. unfold tmc_addresses. rewrite (get_ok f 37) by lia. cbn [bind].
  assert (F : at_ f 37 = 1 \/ at_ f 37 = 2 \/ at_ f 37 = 3 \/ at_ f 37 = 4) by lia.
  destruct F as [F|[F|[F|F]]]; rewrite F in *;
    match goal with |- emits (wbind ?a _) _ => let v := eval vm_compute in (get tmc_player_offset 0) in idtac end;
    destruct (i_songs inf =? 1) eqn:ES; cbn [negb wif] in *; unfold write_pla_tax_lda0; (eapply emits_bind; [reflexivity|]); cbv iota beta;
    cbn [Z.eqb Pos.eqb orb]; (eapply emits_eq; [repeat emit; first [exact HB|apply emits_bytes; lia]|]).
  all: rewrite (whole_file (len f)) by (auto; lia); cbn [executable flat_map]; rewrite !app_nil_r, <- !app_assoc; do 2 f_equal; f_equal;
    replace (3944 - 1280 + 7) with (len r) by lia; rewrite SR; unfold tmc_code.
  all: match goal with |- context [block_bytes (false, ?a, (?b ++ ?c) ++ ?d)] => let v := eval vm_compute in a in change a with v; rewrite <- (block_eq v 3944 ((b ++ c) ++ d)) end;
    [reflexivity|rewrite !len_app, LC, LR; cbn [tmc_head tmc_tail Z.eqb Pos.eqb]; match goal with |- context [len ?a + len ?b + _] => let u := eval vm_compute in (len b) in change (len b) with u; let w := eval cbv in (length a) in change (len a) with (Z.of_nat w) end; lia].
Qed.

Lemma emit_rmt : t = RMT -> 1 <= i_channels inf <= 2 -> ext = rmt_ext -> file_word f 2 <= file_word f 4 -> emits (write_executable false inf f) (sap_file (sap_header_text X) bs).
Proof.
  intros Ht Hc Er Hlast. assert (Ef : ext <> fc_ext) by (rewrite Er; discriminate).
  assert (C2 : i_channels inf = 1 \/ i_channels inf = 2) by lia.
  destruct C2 as [C2|C2]; [start_type Ht Ef Er 912 2912 3200 1539|start_type Ht Ef Er 912 3180 3200 1539].
  all: destruct (L6 Ef) as [(_ & _ & Env) _]; cbv zeta in Env; assert (LN : 7 + file_word f 4 - file_word f 2 <= len f) by (destruct Env as [Env|[_ Env]]; lia).
  all: rewrite HE, MS in *; set (n := 7 + file_word f 4 - file_word f 2) in *.
  all: assert (GW : get_word f 4 = Ok (file_word f 4)) by (apply get_word_ok; lia).
  all: destruct (i_songs inf =? 1) eqn:ES; cbn [negb wif] in *; (eapply emits_eq; [repeat first [emit|eapply (emits_bind _ _ _ _ GW)]; first [exact HB|apply emits_bytes; lia]|]).
  all: replace (file_word f 4 - file_word f 2 + 7) with n by lia; rewrite (whole_file n) by (auto; lia); cbn [executable flat_map]; rewrite !app_nil_r, <- !app_assoc; do 2 f_equal; f_equal.
  all: first [replace (2912 - 912 + 7) with (len r) by lia|replace (3180 - 912 + 7) with (len r) by lia]; rewrite SB.
  all: first [rewrite <- (block_eq 3200 3208) by (lens; lia); reflexivity|rewrite <- (block_eq 3200 (3210 + i_songs inf)) by (lens; lia); rewrite <- ?app_assoc; reflexivity].
Qed.

Lemma emit_fc : t = FC -> ext = fc_ext -> 0 < len f -> 2560 + len f <= 65536 -> emits (write_executable false inf f) (sap_file (sap_header_text X) bs).
Proof.
  intros Ht Ef L0 Lf. assert (N : native t \/ t = FC) by (right; exact Ht). apply (begin N).
  destruct (routine_file t (i_channels inf) N) as (_ & _ & LR & L7 & R0 & R1 & SB & SR). fold r in LR, SB, SR, L7, R0, R1.
  assert (Q : file_word r 2 = 1024 /\ file_word r 4 = 2237) by (unfold r; rewrite Ht; vm_compute; auto). destruct Q as [Q2 Q4].
  unfold write_executable_native. fold t. rewrite Ht. rewrite Q2, Q4 in *. cbv zeta. norm. rewrite Ht. rewrite Ht in SB. unfold exported_data.
  pose proof (head_b 1024 1027) as HB. rewrite Ht in HB. specialize (HB eq_refl eq_refl eq_refl).
  assert (MS : music_start ext f = 2560 /\ music_data ext f = f) by (unfold music_start, music_data; rewrite Ef; split; reflexivity). destruct MS as [MS MD]. rewrite HE, MS, MD.
  eapply emits_eq; [repeat emit; first [exact HB|apply emits_bytes; lia]|].
  rewrite slice_full. replace (2237 - 1024 + 7) with (len r) by lia. rewrite SB. change (word 65535) with [255; 255]. cbn [executable flat_map]. rewrite !app_nil_r. do 2 f_equal.
Qed.
End Emit.
