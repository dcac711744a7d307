(* Load and Write as called through the API, for .sap names. *)
From Coq Require Import String.
From Verif Require Import Base BaseFacts InfoModel InfoSpec Loop NativeModel WriterModel FlashPackModel WriteModel SapSpec.
From Verif Require Import SapWitness DurationProofs InfoProofs SapProofs WriterProofs SapWriteProofs.

(* ---- file names ---- *)
Lemma supported_ext_chars e : In (map lower e) supported_exts -> Forall ext_char e.
Proof.
  intros Hin. destruct (supported_exts_shape _ Hin) as [(x1 & x2 & x3 & E & T1 & T2 & T3)|(x1 & x2 & E & T1 & T2)].
  - destruct e as [|a [|b [|c [|]]]]; try discriminate. injection E as E1 E2 E3.
    repeat constructor; eauto using lower_target_char; eapply lower_target_char; eassumption.
  - destruct e as [|a [|b [|]]]; try discriminate. injection E as E1 E2.
    repeat constructor; eauto using lower_target_char; eapply lower_target_char; eassumption.
Qed.

Lemma pack_exact e : In (map lower e) supported_exts ->
  Z.lor (pack_le e mod 4294967296) 2105376 = packed_of (map lower e).
Proof.
  intros Hin. pose proof (supported_ext_chars e Hin) as He.
  destruct (supported_exts_shape _ Hin) as [(x1 & x2 & x3 & E & T1 & T2 & T3)|(x1 & x2 & E & T1 & T2)]; rewrite E.
  - destruct e as [|a [|b [|c [|]]]]; try discriminate. injection E as E1 E2 E3.
    repeat match goal with H : Forall _ (_ :: _) |- _ => apply Forall_cons_iff in H; let H1 := fresh in destruct H as [H1 H]; destruct H1 as [H1 _] end.
    pose proof (is_target_bound _ T1). pose proof (is_target_bound _ T2). pose proof (is_target_bound _ T3).
    cbn [pack_le packed_of]. rewrite Z.mod_small by lia. rewrite lor_pack3 by lia.
    rewrite (proj2 (lor32_lower a x1 ltac:(lia) T1 ltac:(lia)) E1), (proj2 (lor32_lower b x2 ltac:(lia) T2 ltac:(lia)) E2),
      (proj2 (lor32_lower c x3 ltac:(lia) T3 ltac:(lia)) E3). lia.
  - destruct e as [|a [|b [|]]]; try discriminate. injection E as E1 E2.
    repeat match goal with H : Forall _ (_ :: _) |- _ => apply Forall_cons_iff in H; let H1 := fresh in destruct H as [H1 H]; destruct H1 as [H1 _] end.
    pose proof (is_target_bound _ T1). pose proof (is_target_bound _ T2).
    cbn [pack_le packed_of]. rewrite Z.mod_small by lia.
    replace (a + 256 * (b + 256 * 0)) with (a + 256 * (b + 256 * (0 + 256 * 0))) by lia.
    rewrite lor_pack3 by lia. change (Z.lor 0 32) with 32.
    rewrite (proj2 (lor32_lower a x1 ltac:(lia) T1 ltac:(lia)) E1), (proj2 (lor32_lower b x2 ltac:(lia) T2 ltac:(lia)) E2). lia.
Qed.

Lemma named_packed name ext : named name ext -> In ext supported_exts -> get_packed_ext name = packed_of ext.
Proof.
  intros (stem & e & -> & Hs & <-) Hin. unfold get_packed_ext.
  rewrite !rev_app_distr. cbn [rev app]. rewrite <- app_assoc. cbn [app].
  rewrite packed_ext_loop_run by (try assumption; try lia; now apply supported_ext_chars).
  rewrite Z.mul_0_l, Z.add_0_l. now apply pack_exact.
Qed.

Lemma packed_inj a b : In a supported_exts -> In b supported_exts -> packed_of a = packed_of b -> a = b.
Proof.
  intros Ha Hb E.
  assert (F : forallb (fun a => forallb (fun b => negb (packed_of a =? packed_of b) || eqb_list a b) supported_exts) supported_exts = true)
    by (vm_compute; reflexivity).
  rewrite forallb_forall in F. specialize (F a Ha). cbn beta in F. rewrite forallb_forall in F. specialize (F b Hb). cbn beta in F.
  rewrite E, Z.eqb_refl in F. cbn [negb orb] in F. now apply eqb_list_spec.
Qed.

Lemma packed_named name ext : In ext supported_exts -> get_packed_ext name = packed_of ext -> named name ext.
Proof.
  intros Hin E. assert (S : supported_name name).
  { apply is_our_file_spec. unfold is_our_file. apply is_our_packed_spec. rewrite E. now apply in_map. }
  destruct S as (stem & e & En & Hs & He). exists stem, e. split; [exact En|]. split; [exact Hs|].
  apply packed_inj; [exact He|exact Hin|]. rewrite <- E. symmetry. apply named_packed; [|exact He]. exists stem, e. auto.
Qed.

Lemma load_name_loop_range rev i ext n : -1 <= i -> i < n -> len rev = i + 1 -> ext = -1 \/ i < ext < n ->
  let '(b, e) := load_name_loop rev i ext in 0 <= b /\ (e = -1 \/ b <= e < n).
Proof.
  revert i ext. induction rev as [|c r IH]; intros i ext Hi Hn Hl He; cbn [load_name_loop].
  - rewrite len_nil in Hl. lia.
  - rewrite len_cons in Hl. pose proof (len_nonneg r). destruct ((c =? 47) || (c =? 92)); [lia|].
    apply (IH (i - 1)); try lia. destruct (c =? 46); lia.
Qed.

Lemma load_filename_wp f : wp (load_filename f) (fun n => len n <= 127).
Proof.
  unfold load_filename. pose proof (len_nonneg f).
  pose proof (load_name_loop_range (rev f) (len f - 1) (-1) (len f) ltac:(lia) ltac:(lia)
     ltac:(unfold len; rewrite rev_length; lia) ltac:(lia)) as R.
  destruct (load_name_loop _ _ _) as [b e]. destruct R as [R1 R2].
  destruct (Z.ltb_spec e 0) as [C|C]; [exact I|].
  destruct (Z.ltb_spec 127 (e - b)); apply wp_get_range; try lia; rewrite len_slice; lia.
Qed.

Lemma load_name_keeps rev i ext : 0 <= ext -> 0 <= i + 1 - len rev -> 0 <= snd (load_name_loop rev i ext).
Proof.
  revert i ext. induction rev as [|c r IH]; intros i ext H Hl; cbn [load_name_loop]; [exact H|].
  rewrite len_cons in Hl. pose proof (len_nonneg r).
  destruct ((c =? 47) || (c =? 92)); [exact H|]. apply IH; [|lia]. destruct (c =? 46); lia.
Qed.

Lemma load_name_finds e stem i ext : Forall (fun c => c <> 47 /\ c <> 92) e -> 0 <= i + 1 - len (e ++ 46 :: stem) ->
  0 <= snd (load_name_loop (e ++ 46 :: stem) i ext).
Proof.
  revert i ext. induction e as [|c e IH]; intros i ext He Hl; cbn [app load_name_loop].
  - cbn [app] in Hl. rewrite len_cons in Hl. pose proof (len_nonneg stem).
    change ((46 =? 47) || (46 =? 92)) with false. change (46 =? 46) with true. cbv iota. apply load_name_keeps; lia.
  - apply Forall_cons_iff in He. destruct He as [Hc He]. cbn [app] in Hl. rewrite len_cons in Hl. pose proof (len_nonneg (e ++ 46 :: stem)).
    replace ((c =? 47) || (c =? 92)) with false by lia. apply IH; [exact He|lia].
Qed.

Lemma lower_target_plain e : In (map lower e) supported_exts -> Forall (fun c => c <> 47 /\ c <> 92) e.
Proof.
  intros Hin.
  assert (K : forall c t, lower c = t -> is_target t = true -> c <> 47 /\ c <> 92).
  { intros c t H T. unfold lower, is_target in *. destruct ((65 <=? c) && (c <=? 90)) eqn:E; lia. }
  destruct (supported_exts_shape _ Hin) as [(x1 & x2 & x3 & E & T1 & T2 & T3)|(x1 & x2 & E & T1 & T2)].
  - destruct e as [|a [|b [|c [|]]]]; try discriminate. injection E as E1 E2 E3.
    repeat constructor; (eapply K; eassumption) || eauto.
    all: match goal with |- ?c <> _ => first [exact (proj1 (K _ _ E1 T1))|exact (proj2 (K _ _ E1 T1))|exact (proj1 (K _ _ E2 T2))|exact (proj2 (K _ _ E2 T2))|exact (proj1 (K _ _ E3 T3))|exact (proj2 (K _ _ E3 T3))] end.
  - destruct e as [|a [|b [|]]]; try discriminate. injection E as E1 E2.
    repeat constructor.
    all: match goal with |- ?c <> _ => first [exact (proj1 (K _ _ E1 T1))|exact (proj2 (K _ _ E1 T1))|exact (proj1 (K _ _ E2 T2))|exact (proj2 (K _ _ E2 T2))] end.
Qed.

Lemma named_load_filename name ext : named name ext -> In ext supported_exts -> exists n, load_filename name = Ok n.
Proof.
  intros (stem & e & -> & Hs & <-) Hin.
  pose proof (load_filename_wp (stem ++ [46] ++ e)) as W. unfold load_filename in *.
  assert (0 <= snd (load_name_loop (rev (stem ++ [46] ++ e)) (len (stem ++ [46] ++ e) - 1) (-1))).
  { rewrite !rev_app_distr. cbn [rev app]. rewrite <- app_assoc. cbn [app]. apply load_name_finds.
    - apply Forall_rev. now apply lower_target_plain.
    - unfold len. rewrite ?app_length, ?rev_length. cbn [length]. rewrite ?app_length, ?rev_length. lia. }
  destruct (load_name_loop _ _ _) as [b x]. cbn [snd] in *. destruct (Z.ltb_spec x 0); [lia|].
  unfold get_range in *.
  destruct (_ <? 0); [contradiction|]. destruct (_ || _); [contradiction|]. eauto.
Qed.

(* ---- Load of a .sap name ---- *)
Lemma sap_supported : In sap_ext supported_exts.
Proof. left. reflexivity. Qed.

Lemma load_sap fuel self name module : named name sap_ext ->
  exists n, api_load fuel self (Some name) module = parse_sap (load_defaults (set_filename n self)) module.
Proof.
  intros H. destruct (named_load_filename _ _ H sap_supported) as [n E]. exists n. unfold api_load. rewrite E. cbn [bind].
  rewrite (named_packed _ _ H sap_supported). reflexivity.
Qed.

Lemma load_sap_wp fuel self name module (P : info -> Prop) : named name sap_ext -> bytes module ->
  (forall inf, sap_loaded module inf -> P inf) -> wp (api_load fuel self (Some name) module) P.
Proof. intros H Hb HP. destruct (load_sap fuel self name module H) as [n ->]. now apply parse_sap_wp. Qed.

Lemma write_sap name inf module tag w : named name sap_ext ->
  api_write name inf module tag w = write_executable false inf module w.
Proof.
  intros H. unfold api_write. rewrite (named_packed _ _ H sap_supported).
  change (packed_of sap_ext) with 7364979. rewrite Z.eqb_refl. reflexivity.
Qed.

Lemma header_text_ascii inf module : sap_editable module inf -> Forall (fun c => 0 <= c < 128) (sap_header_text inf).
Proof.
  intros []. unfold sap_header_text. apply Forall_app. split; [vm_compute; repeat constructor; discriminate|].
  apply Forall_app. split; [repeat constructor; lia|].
  assert (L : forall l, Forall (fun h => Forall (fun c => 0 <= c < 128) (line_text h)) l -> Forall (fun c => 0 <= c < 128) (lines_text l)).
  { clear. induction 1; [constructor|]. unfold lines_text in *. cbn [map concat]. now apply Forall_app. }
  apply L. clear L.
  assert (S : forall s, forallb (fun c => (0 <=? c) && (c <? 128)) s = true -> Forall (fun c => 0 <= c < 128) s).
  { intros s Hs. apply Forall_forall. intros c Hc. rewrite forallb_forall in Hs. specialize (Hs c Hc). lia. }
  assert (Q : forall t, Forall sap_char t -> Forall (fun c => 0 <= c < 128) t).
  { intros t Ht. eapply Forall_impl; [|exact Ht]. unfold sap_char. intros; lia. }
  assert (T : forall tag t, forallb (fun c => (0 <=? c) && (c <? 128)) tag = true -> Forall sap_char t ->
     Forall (fun c => 0 <= c < 128) (line_text (text_line tag t))).
  { intros tag t H1 H2. unfold line_text, text_line. cbn [h_tag h_arg]. apply Forall_app. split; [now apply S|].
    apply Forall_app. split; [|apply S; reflexivity]. constructor; [lia|]. constructor; [lia|]. apply Forall_app. split; [|apply S; reflexivity].
    destruct t; [apply S; reflexivity|now apply Q]. }
  assert (D : forall tag v, forallb (fun c => (0 <=? c) && (c <? 128)) tag = true -> 0 <= v < 10 ^ 11 ->
     Forall (fun c => 0 <= c < 128) (line_text (dec_line tag v))).
  { intros tag v H1 H2. unfold line_text, dec_line. cbn [h_tag h_arg]. apply Forall_app. split; [now apply S|].
    apply Forall_app. split; [|apply S; reflexivity]. constructor; [lia|].
    destruct (dec_digits_spec 11 v) as [F _]; [exact H2|]. eapply Forall_impl; [|exact F]. unfold dec_char. intros; lia. }
  assert (X : forall tag v, forallb (fun c => (0 <=? c) && (c <? 128)) tag = true ->
     Forall (fun h => Forall (fun c => 0 <= c < 128) (line_text h)) (hex_lines tag v)).
  { intros tag v H1. unfold hex_lines. destruct (v <? 0); constructor; [|constructor]. unfold line_text. cbn [h_tag h_arg].
    apply Forall_app. split; [now apply S|]. apply Forall_app. split; [|apply S; reflexivity]. constructor; [lia|].
    assert (forall a, 0 <= hex_char_of (a mod 16) < 128) by (intros a; unfold hex_char_of; destruct (_ <? 10); lia).
    unfold hex4. repeat constructor; apply H. }
  assert (M : forall n d l, Forall (fun h => Forall (fun c => 0 <= c < 128) (line_text h)) (time_lines n d l)).
  { induction n as [|n IH]; intros d l; [constructor|]. destruct d as [|d ds]; [constructor|]. destruct l as [|l ls]; [constructor|].
    cbn [time_lines]. destruct (Z.ltb_spec d 0); constructor; [|apply IH].
    unfold line_text, time_line. cbn [h_tag h_arg]. apply Forall_app. split; [apply S; reflexivity|].
    apply Forall_app. split; [|apply S; reflexivity]. constructor; [lia|]. apply Forall_app. split; [|destruct l; apply S; reflexivity].
    destruct (Z_lt_ge_dec d 6000000).
    - destruct (duration_chars d ltac:(lia)) as [F _]. eapply Forall_impl; [|exact F]. unfold time_char. intros; lia.
    - rewrite duration_no_text by lia. constructor. }
  unfold sap_lines. unfold addr_or_none in *.
  repeat first
  [ apply Forall_app; split
  | apply X; reflexivity
  | apply M
  | apply Forall_cons; [first [apply T; [reflexivity|assumption]|apply D; [reflexivity|lia]|apply S; reflexivity]|]
  | apply Forall_nil
  | match goal with |- Forall _ (if ?b then _ else _) => destruct b end ].
  apply Forall_cons; [|constructor]. unfold line_text. cbn [h_tag h_arg]. apply Forall_app; split; [apply S; reflexivity|].
  constructor; [lia|]. constructor; [unfold type_letter, api_get_type_letter; destruct (i_type inf); lia|]. apply S; reflexivity.
Qed.

(* saving a loaded and edited SAP file: the output, when there is room for it *)
Lemma save_sap fuel self name module inf inf2 out tag w :
  named name sap_ext -> bytes module -> api_load fuel self (Some name) module = Ok inf -> edited inf inf2 ->
  named out sap_ext -> wf w ->
  exists hdr,
    Forall (fun c => 0 <= c < 128) hdr /\ (exists r, hdr = [83; 65; 80; 13; 10] ++ r)
    /\ i_headerLen inf2 = i_headerLen inf
    /\ (w_end w < w_off w + len hdr + (len module - i_headerLen inf2) ->
         exists w', api_write out inf2 module tag w = Ok (false, w'))
    /\ (w_off w + len hdr + (len module - i_headerLen inf2) <= w_end w ->
         exists w', api_write out inf2 module tag w = Ok (true, w')
           /\ written w w' = hdr ++ slice module (i_headerLen inf2) (len module)
           /\ w_off w' = w_off w + len hdr + (len module - i_headerLen inf2)
           /\ (i_author inf2 <> unknown_text -> i_title inf2 <> unknown_text -> i_date inf2 <> unknown_text ->
               Forall (fun d => d < 6000000) (firstn (known_songs inf2) (i_durations inf2)) ->
               forall fuel' self' name', named name' sap_ext ->
               exists inf3, api_load fuel' self' (Some name') (written w w') = Ok inf3
                 /\ sap_same inf2 inf3 /\ i_headerLen inf3 = len hdr)).
Proof.
  intros Hn Hb Hl He Ho Hw.
  assert (Hs : sap_loaded module inf).
  { pose proof (load_sap_wp fuel self name module (sap_loaded module) Hn Hb ltac:(auto)) as W. rewrite Hl in W. exact W. }
  pose proof (edited_editable module _ _ He (loaded_editable _ _ Hs)) as Hed.
  pose proof (emits_sap_file module inf2 Hed) as Hem.
  assert (Hh : i_headerLen inf2 = i_headerLen inf).
  { clear -He. induction He as [i|i j v b k He IH E|i j v b k He IH E|i j v b k He IH E|i j song b k He IH E
     |i j song d b k He IH E|i j song l b k He IH E|i j ntsc k He IH E|i j v b k He IH E]; [reflexivity|..]; rewrite <- IH.
    - unfold api_set_author in E. destruct (check_valid_text v); injection E as <- <-; reflexivity.
    - unfold api_set_title in E. destruct (check_valid_text v); injection E as <- <-; reflexivity.
    - unfold api_set_date in E. destruct (check_valid_text v); injection E as <- <-; reflexivity.
    - unfold api_set_default_song in E. destruct (_ || _); injection E as <- <-; reflexivity.
    - unfold api_set_duration in E. destruct (_ || _); [injection E as <- <-; reflexivity|].
      destruct (set_nth _ _ _); try discriminate. injection E as <- <-. reflexivity.
    - unfold api_set_loop in E. destruct (_ || _); [injection E as <- <-; reflexivity|].
      destruct (set_nth _ _ _); try discriminate. injection E as <- <-. reflexivity.
    - unfold api_set_ntsc in E. destruct (_ <? _); [discriminate|]. injection E as <-. reflexivity.
    - unfold api_set_music_address in E. destruct (_ || _); injection E as <- <-; reflexivity. }
  exists (sap_header_text inf2). split; [now apply (header_text_ascii inf2 module)|].
  split; [eexists; reflexivity|]. split; [exact Hh|].
  pose proof (se_header _ _ Hed) as (B1 & B2 & B3 & B4).
  destruct (Hem w Hw) as [W1 W2].
  rewrite len_app, len_slice in W1, W2 by lia.
  split.
  - intros C. destruct W2 as (w' & E & _); [lia|]. exists w'. rewrite write_sap by assumption. exact E.
  - intros C. exists (put w (sap_header_text inf2 ++ slice module (i_headerLen inf2) (len module))).
    split; [rewrite write_sap by assumption; apply W1; lia|].
    assert (Ew : written w (put w (sap_header_text inf2 ++ slice module (i_headerLen inf2) (len module)))
      = sap_header_text inf2 ++ slice module (i_headerLen inf2) (len module)).
    { apply written_put; [exact Hw|]. rewrite len_app, len_slice by lia. lia. }
    split; [exact Ew|]. split; [cbn [put w_off]; rewrite len_app, len_slice by lia; lia|].
    intros N1 N2 N3 N4 fuel' self' name' Hn'. rewrite Ew.
    destruct (load_sap fuel' self' name' (sap_header_text inf2 ++ slice module (i_headerLen inf2) (len module)) Hn') as [n ->].
    pose proof (editable_savable module inf2 Hed N1 N2 N3 N4) as Hsv.
    apply (parse_sap_written module inf2 (set_filename n self') (slice module (i_headerLen inf2) (len module)) Hsv).
    + rewrite len_slice; lia.
    + rewrite at_slice by lia. rewrite Z.add_0_r. exact B3.
    + rewrite at_slice by lia. exact B4.
Qed.

(* ---- numeric tags ---- *)
Lemma decimal_exact module i e min max v :
  0 <= i < e -> e <= len module -> 0 <= min <= max -> max <= 32767 ->
  (parse_dec module i e min max = Ok v <->
   Forall dec_char (slice module i e) /\ v = dec_value (slice module i e) /\ min <= v <= max).
Proof. intros. now apply parse_dec_spec. Qed.

Lemma no_argument_rejected module e min max : parse_dec module (-1) e min max = Fail /\ parse_hex module (-1) e = Fail.
Proof. split; reflexivity. Qed.

Lemma dec_digits_len n v : 0 <= v < 10 ^ Z.of_nat (S n) -> 1 <= len (dec_digits (S n) v) <= Z.of_nat (S n).
Proof.
  revert v. induction n as [|n IH]; intros v Hv.
  - cbn [dec_digits]. destruct (Z.leb_spec 10 v); [change (10 ^ Z.of_nat 1) with 10 in Hv; lia|]. cbn [app]. rewrite len_cons, len_nil. lia.
  - change (dec_digits (S (S n)) v) with ((if 10 <=? v then dec_digits (S n) (v / 10) else []) ++ [48 + v mod 10]).
    rewrite len_app, len_cons, len_nil. destruct (Z.leb_spec 10 v); [|rewrite len_nil; lia].
    assert (10 ^ Z.of_nat (S (S n)) = 10 * 10 ^ Z.of_nat (S n)) by (rewrite (Nat2Z.inj_succ (S n)), Z.pow_succ_r; lia).
    specialize (IH (v / 10) ltac:(lia)). lia.
Qed.

Lemma decimal_written tag v w : bytes tag -> 0 <= v <= 2147483647 -> wf w -> w_off w + len tag + 12 <= w_end w ->
  exists w' arg,
    write_dec_sap_tag tag v w = Ok (true, w') /\ written w w' = tag ++ arg ++ [13; 10] /\ 0 < len arg
    /\ forall pre post min max, 0 <= min <= v -> v <= max <= 32767 ->
         parse_dec (pre ++ arg ++ post) (len pre) (len pre + len arg) min max = Ok v.
Proof.
  intros Hb Hv Hw Hr.
  assert (E : emits (write_dec_sap_tag tag v) (tag ++ dec_digits 11 v ++ [13; 10])).
  { unfold write_dec_sap_tag. eapply emits_eq.
    - apply emits_seqs. eapply ea_cons; [apply emits_string|]. eapply ea_cons; [apply emits_dec; change (10 ^ Z.of_nat 11) with 100000000000; lia|]. emits_auto.
    - rewrite (map_u8 tag) by assumption. reflexivity. }
  assert (L : 1 <= len (dec_digits 11 v) <= 10).
  { change (dec_digits 11 v) with ((if 10 <=? v then dec_digits 10 (v / 10) else []) ++ [48 + v mod 10]).
    rewrite len_app, len_cons, len_nil. destruct (Z.leb_spec 10 v); [|rewrite len_nil; lia].
    pose proof (dec_digits_len 8 (v / 10) ltac:(change (10 ^ Z.of_nat 9) with 1000000000; lia)) as L9.
    assert (Q : forall n v, 0 <= v < 10 ^ Z.of_nat (S n) -> dec_digits (S (S n)) v = dec_digits (S n) v).
    { clear. induction n as [|n IH]; intros v Hv.
      - change (10 ^ Z.of_nat 1) with 10 in Hv. cbn [dec_digits]. destruct (Z.leb_spec 10 v); [lia|reflexivity].
      - change (dec_digits (S (S (S n))) v) with ((if 10 <=? v then dec_digits (S (S n)) (v / 10) else []) ++ [48 + v mod 10]).
        change (dec_digits (S (S n)) v) with ((if 10 <=? v then dec_digits (S n) (v / 10) else []) ++ [48 + v mod 10]).
        assert (10 ^ Z.of_nat (S (S n)) = 10 * 10 ^ Z.of_nat (S n)) by (rewrite (Nat2Z.inj_succ (S n)), Z.pow_succ_r; lia).
        destruct (10 <=? v); [|reflexivity]. rewrite IH by lia. reflexivity. }
    rewrite (Q 8%nat) by (change (10 ^ Z.of_nat 9) with 1000000000; lia). lia. }
  destruct (E w Hw) as [E1 _]. rewrite !len_app in E1. change (len [13; 10]) with 2 in E1.
  eexists _, (dec_digits 11 v). split; [apply E1; lia|]. split.
  { apply written_put; [exact Hw|]. rewrite !len_app. change (len [13; 10]) with 2. lia. }
  split; [lia|]. intros pre post min max H1 H2. apply parse_dec_line; [lia|lia|change (10 ^ 11) with 100000000000; lia].
Qed.

Lemma hexadecimal_written tag v w : bytes tag -> 0 <= v <= 65535 -> wf w -> w_off w + len tag + 6 <= w_end w ->
  exists w' arg,
    write_hex_sap_tag tag v w = Ok (true, w') /\ written w w' = tag ++ arg ++ [13; 10] /\ 0 < len arg
    /\ forall pre post, parse_hex (pre ++ arg ++ post) (len pre) (len pre + len arg) = Ok v.
Proof.
  intros Hb Hv Hw Hr.
  assert (E : emits (write_hex_sap_tag tag v) (tag ++ hex4 v ++ [13; 10])).
  { unfold write_hex_sap_tag. destruct (Z.ltb_spec v 0); [lia|]. eapply emits_eq.
    - apply emits_seqs. eapply ea_cons; [apply emits_string|]. do 4 (eapply ea_cons; [apply emits_hex_digit; lia|]). emits_auto.
    - rewrite (map_u8 tag) by assumption. unfold hex4.
      change (2 ^ 12) with 4096. change (2 ^ 8) with 256. change (2 ^ 4) with 16. change (2 ^ 0) with 1.
      rewrite Z.div_1_r. reflexivity. }
  destruct (E w Hw) as [E1 _]. rewrite !len_app in E1. change (len [13; 10]) with 2 in E1. change (len (hex4 v)) with 4 in E1.
  eexists _, (hex4 v). split; [apply E1; lia|]. split.
  { apply written_put; [exact Hw|]. rewrite !len_app. change (len [13; 10]) with 2. change (len (hex4 v)) with 4. lia. }
  split; [change (len (hex4 v)) with 4; lia|]. intros pre post. now apply parse_hex_line.
Qed.

(* ---- the property statements ---- *)
Lemma sap_load_defined fuel self name module : named name sap_ext -> bytes module ->
  defined (api_load fuel self (Some name) module).
Proof. intros H1 H2. eapply wp_defined. now apply (load_sap_wp fuel self name module (fun _ => True)). Qed.

Lemma sap_load_guarantees fuel self name module inf : named name sap_ext -> bytes module ->
  api_load fuel self (Some name) module = Ok inf -> sap_loaded module inf.
Proof.
  intros H1 H2 E. pose proof (load_sap_wp fuel self name module (sap_loaded module) H1 H2 ltac:(auto)) as W. now rewrite E in W.
Qed.

Lemma sap_save_load fuel self name module inf inf2 out tag w w' :
  named name sap_ext -> bytes module -> api_load fuel self (Some name) module = Ok inf -> edited inf inf2 ->
  i_author inf2 <> unknown_text -> i_title inf2 <> unknown_text -> i_date inf2 <> unknown_text ->
  Forall (fun d => d < 6000000) (firstn (known_songs inf2) (i_durations inf2)) ->
  named out sap_ext -> wf w -> api_write out inf2 module tag w = Ok (true, w') ->
  forall fuel' self' name', named name' sap_ext ->
  exists inf3, api_load fuel' self' (Some name') (written w w') = Ok inf3 /\ sap_same inf2 inf3.
Proof.
  intros H1 H2 H3 H4 N1 N2 N3 N4 H5 Hw E fuel' self' name' H6.
  destruct (save_sap fuel self name module inf inf2 out tag w H1 H2 H3 H4 H5 Hw) as (hdr & _ & _ & _ & F & S).
  destruct (Z_le_gt_dec (w_off w + len hdr + (len module - i_headerLen inf2)) (w_end w)) as [C|C].
  - destruct (S C) as (w2 & E2 & _ & _ & R). rewrite E in E2. apply Ok_inj in E2. injection E2 as <-.
    destruct (R N1 N2 N3 N4 fuel' self' name' H6) as (inf3 & R1 & R2 & _). eauto.
  - destruct F as (w2 & E2); [lia|]. rewrite E in E2. discriminate.
Qed.

Lemma sap_payload_kept fuel self name module inf inf2 out tag w :
  named name sap_ext -> bytes module -> api_load fuel self (Some name) module = Ok inf -> edited inf inf2 ->
  named out sap_ext -> wf w ->
  exists hdr,
    Forall (fun c => 0 <= c < 128) hdr /\ (exists r, hdr = [83; 65; 80; 13; 10] ++ r)
    /\ i_headerLen inf2 = i_headerLen inf
    /\ (w_end w < w_off w + len hdr + (len module - i_headerLen inf) -> exists w', api_write out inf2 module tag w = Ok (false, w'))
    /\ (w_off w + len hdr + (len module - i_headerLen inf) <= w_end w ->
        exists w', api_write out inf2 module tag w = Ok (true, w')
          /\ written w w' = hdr ++ slice module (i_headerLen inf) (len module)
          /\ w_off w' = w_off w + len hdr + (len module - i_headerLen inf)).
Proof.
  intros H1 H2 H3 H4 H5 Hw.
  destruct (save_sap fuel self name module inf inf2 out tag w H1 H2 H3 H4 H5 Hw) as (hdr & A & B & C & F & S).
  rewrite C in F, S. exists hdr. repeat (split; [assumption|]). intros D. destruct (S D) as (w' & S1 & S2 & S3 & _). eauto.
Qed.

(* ---- witnesses ---- *)
Lemma sap_witness_loads : named (str "x.Sap") sap_ext /\ bytes sap_witness
  /\ exists inf, api_load 0 blank_info (Some (str "x.Sap")) sap_witness = Ok inf.
Proof.
  split; [exists [120], [83; 97; 112]; repeat split; discriminate|].
  split; [apply bytesb_spec; vm_compute; reflexivity|]. eexists. vm_compute. reflexivity.
Qed.

Definition witness_info : info :=
  mkInfo (str "x") [] (str "A title") [] 1 2 1 ([59200; 90000] ++ repeat (-1) 30) ([false; true] ++ repeat false 30)
    false SAP_B 312 8192 4096 4099 (-1) 114 (repeat 0 32).

Lemma witness_info_loads : api_load 0 blank_info (Some (str "x.sap")) sap_witness = Ok witness_info.
Proof. vm_compute. reflexivity. Qed.

(* the outcome of saving with room for 300 bytes *)
Definition saved_state (inf : info) : wstate :=
  match api_write (str "y.sap") inf sap_witness false (mkW (repeat 0 300) 0 300) with
  | Ok (_, w) => w | _ => mkW [] 0 0 end.

Lemma long_duration_unloadable :
  exists inf inf2 w',
    api_load 0 blank_info (Some (str "x.sap")) sap_witness = Ok inf
    /\ api_set_duration inf 0 6000000 = Ok (true, inf2)
    /\ api_write (str "y.sap") inf2 sap_witness false (mkW (repeat 0 300) 0 300) = Ok (true, w')
    /\ forall fuel self, api_load fuel self (Some (str "y.sap")) (written (mkW (repeat 0 300) 0 300) w') = Fail.
Proof.
  set (inf2 := set_durations ([6000000; 90000] ++ repeat (-1) 30) witness_info).
  exists witness_info, inf2, (saved_state inf2).
  split; [exact witness_info_loads|]. split; [reflexivity|]. split; [vm_compute; reflexivity|].
  intros fuel self. vm_compute. reflexivity.
Qed.

Lemma unknown_text_lost :
  exists inf inf2 w' inf3,
    api_load 0 blank_info (Some (str "x.sap")) sap_witness = Ok inf
    /\ api_set_title inf (str "<?>") = (true, inf2)
    /\ api_write (str "y.sap") inf2 sap_witness false (mkW (repeat 0 300) 0 300) = Ok (true, w')
    /\ api_load 0 blank_info (Some (str "y.sap")) (written (mkW (repeat 0 300) 0 300) w') = Ok inf3
    /\ i_title inf3 = [] /\ i_title inf2 = str "<?>".
Proof.
  exists witness_info, (set_title (str "<?>") witness_info), (saved_state (set_title (str "<?>") witness_info)). eexists.
  split; [exact witness_info_loads|]. split; [reflexivity|]. split; [vm_compute; reflexivity|].
  split; [vm_compute; reflexivity|]. split; reflexivity.
Qed.

Lemma music_lost :
  exists inf w' inf3,
    api_load 0 blank_info (Some (str "x.sap")) sap_witness = Ok inf
    /\ api_write (str "y.sap") inf sap_witness false (mkW (repeat 0 300) 0 300) = Ok (true, w')
    /\ api_load 0 blank_info (Some (str "y.sap")) (written (mkW (repeat 0 300) 0 300) w') = Ok inf3
    /\ i_music inf = 8192 /\ i_music inf3 = -1.
Proof.
  exists witness_info, (saved_state witness_info). eexists.
  split; [exact witness_info_loads|]. split; [vm_compute; reflexivity|].
  split; [vm_compute; reflexivity|]. split; reflexivity.
Qed.

Lemma author_kept :
  exists inf inf2 w',
    api_load 0 blank_info (Some (str "x.sap")) sap_witness = Ok inf
    /\ api_set_author inf (str "Someone") = (true, inf2)
    /\ api_write (str "y.sap") inf2 sap_witness false (mkW (repeat 0 300) 0 300) = Ok (true, w')
    /\ exists inf3, api_load 0 blank_info (Some (str "z.sap")) (written (mkW (repeat 0 300) 0 300) w') = Ok inf3
       /\ i_author inf3 = str "Someone" /\ i_durations inf3 = [59200; 90000] ++ repeat (-1) 30.
Proof.
  exists witness_info, (set_author (str "Someone") witness_info), (saved_state (set_author (str "Someone") witness_info)).
  split; [exact witness_info_loads|]. split; [reflexivity|]. split; [vm_compute; reflexivity|].
  eexists. split; [vm_compute; reflexivity|]. split; reflexivity.
Qed.

Lemma payload_example :
  exists inf w',
    api_load 0 blank_info (Some (str "x.sap")) sap_witness = Ok inf
    /\ api_write (str "y.sap") inf sap_witness false (mkW (repeat 0 300) 7 300) = Ok (true, w')
    /\ slice (w_out w') (w_off w' - 9) (w_off w') = [255; 255; 0; 16; 2; 16; 96; 234; 96].
Proof.
  exists witness_info. eexists. split; [exact witness_info_loads|]. split; [vm_compute; reflexivity|]. vm_compute. reflexivity.
Qed.
