(* The SAP header parser: memory safety, termination and guarantees about what is loaded. *)
From Coq Require Import String.
From Verif Require Import Base BaseFacts InfoModel InfoSpec SapSpec DurationProofs InfoProofs.

Lemma has_string_at_wp module i s (P : bool -> Prop) :
  0 <= i -> i + len s <= len module -> (forall b, P b) -> wp (has_string_at module i s) P.
Proof.
  revert i. induction s as [|c s IH]; intros i Hi Hl HP; cbn [has_string_at]; [apply HP|].
  rewrite len_cons in Hl. pose proof (len_nonneg s). apply wp_bind, wp_get; [lia|].
  destruct (negb (c =? at_ module i)); [apply HP|]. apply IH; lia || assumption.
Qed.

(* the argument characters: printable ones valid, no newline *)
Definition arg_char (c : Z) : Prop := (32 < c -> is_valid_char c = true) /\ c <> 10.

Definition arg_range (module : list Z) (i e : Z) : Prop := forall k, 0 <= i <= k -> k < e -> arg_char (at_ module k).

Lemma cstr_sap_char t : Forall (fun c => byte c /\ arg_char c) t -> Forall sap_char (cstr t).
Proof.
  induction 1 as [|c t [Hb [Hc1 Hc2]] _ IH]; cbn [cstr]; [constructor|].
  destruct (Z.eqb_spec c 0); [constructor|]. constructor; [|exact IH].
  unfold sap_char, is_valid_char, byte in *. destruct (Z_le_gt_dec c 32) as [L|L]; [lia|]. specialize (Hc1 ltac:(lia)). lia.
Qed.

Lemma arg_range_slice module i e a b : bytes module -> arg_range module i e -> 0 <= i <= a -> b <= e -> e <= len module ->
  Forall (fun c => byte c /\ arg_char c) (slice module a b).
Proof.
  intros Hb H Ha Hbe He. apply Forall_forall. intros c Hc.
  destruct (Z_le_gt_dec a b) as [L|L].
  2:{ unfold slice in Hc. replace (Z.to_nat (b - a)) with O in Hc by lia. destruct Hc. }
  destruct (In_nth _ _ 0 Hc) as (k & Hk & E).
  assert (Lk : (k < Z.to_nat (b - a))%nat).
  { pose proof (len_slice module a b ltac:(lia) ltac:(lia) ltac:(lia)) as Ls. unfold len in Ls. lia. }
  pose proof (at_slice module a b (Z.of_nat k) ltac:(lia) ltac:(lia) ltac:(lia)) as Ak.
  unfold at_ at 1 in Ak. rewrite Nat2Z.id in Ak. rewrite <- E, Ak. split; [apply at_byte; [assumption|lia]|apply H; lia].
Qed.

Lemma parse_text_wp module i e (P : list Z -> Prop) :
  bytes module -> arg_range module i e -> e <= len module -> (forall t, Forall sap_char t -> P t) -> wp (parse_text module i e) P.
Proof.
  intros Hb Har He HP. unfold parse_text.
  destruct (Z.ltb_spec i 0) as [H1|H1]; cbn [orb]; [apply HP; constructor|].
  destruct (Z.ltb_spec (e - i - 2) 0) as [H2|H2]; [apply HP; constructor|].
  apply wp_bind, wp_get; [lia|]. destruct (negb _); [apply HP; constructor|].
  apply wp_bind, wp_get; [lia|]. destruct (negb _); [apply HP; constructor|].
  apply wp_bind.
  assert (K : forall b : bool, wp (if b then Ok [] else t <- get_range module (i + 1) (i + 1 + (e - i - 2)) ;; Ok (cstr t)) P).
  { intros [|]; [apply HP; constructor|]. apply wp_bind, wp_get_range; [lia..|]. apply HP, cstr_sap_char.
    eapply arg_range_slice; [assumption|exact Har|lia|lia|lia]. }
  destruct (Z.eqb_spec (e - i - 2) 3) as [H3|H3]; [|apply K].
  apply wp_bind, wp_get; [lia|]. destruct (negb _); [apply K|].
  apply wp_bind, wp_get; [lia|]. destruct (negb _); [apply K|].
  apply wp_bind, wp_get; [lia|]. apply K.
Qed.

Lemma parse_dec_loop_wp fuel module i e max r (P : Z -> Prop) :
  0 <= i -> e <= len module -> e - i <= Z.of_nat fuel -> 0 <= r <= max ->
  (forall v, 0 <= v <= max -> P v) -> wp (parse_dec_loop fuel module i e max r) P.
Proof.
  revert i r. induction fuel as [|fuel IH]; intros i r Hi He Hf Hr HP; cbn [parse_dec_loop];
    (destruct (Z.ltb_spec i e); [|now apply HP]); [lia|].
  apply wp_bind, wp_get; [lia|]. destruct ((at_ module i <? 48) || (57 <? at_ module i)) eqn:D; [exact I|].
  destruct (Z.ltb_spec max (r * 10 + at_ module i - 48)); [exact I|].
  apply IH; lia || assumption.
Qed.

Lemma parse_dec_wp module i e min max (P : Z -> Prop) :
  e <= len module -> 0 <= max ->
  (forall v, 0 <= v -> min <= v <= max -> P v) -> wp (parse_dec module i e min max) P.
Proof.
  intros He Hm HP. unfold parse_dec. destruct (Z.ltb_spec i 0); [exact I|].
  apply wp_bind. apply parse_dec_loop_wp; [lia|lia|unfold len in He; lia|lia|].
  intros v Hv. destruct (Z.ltb_spec v min); [exact I|]. apply HP; lia.
Qed.

Lemma hex_digit_wp c (P : Z -> Prop) : (forall v, 0 <= v < 16 -> P v) -> wp (hex_digit c) P.
Proof.
  intros HP. unfold hex_digit.
  destruct ((48 <=? c) && (c <=? 57)) eqn:E1; [apply HP; lia|].
  destruct ((65 <=? c) && (c <=? 70)) eqn:E2; [apply HP; lia|].
  destruct ((97 <=? c) && (c <=? 102)) eqn:E3; [apply HP; lia|]. exact I.
Qed.

Lemma parse_hex_loop_wp fuel module i e r (P : Z -> Prop) :
  0 <= i -> e <= len module -> e - i <= Z.of_nat fuel -> 0 <= r <= 65535 ->
  (forall v, 0 <= v <= 65535 -> P v) -> wp (parse_hex_loop fuel module i e r) P.
Proof.
  revert i r. induction fuel as [|fuel IH]; intros i r Hi He Hf Hr HP; cbn [parse_hex_loop];
    (destruct (Z.ltb_spec i e); [|now apply HP]); [lia|].
  apply wp_bind, wp_get; [lia|]. destruct (Z.ltb_spec 4095 r); [exact I|].
  apply wp_bind. apply hex_digit_wp. intros d Hd. rewrite Z.shiftl_mul_pow2 by lia. change (2 ^ 4) with 16.
  apply IH; lia || assumption.
Qed.

Lemma parse_hex_wp module i e (P : Z -> Prop) :
  e <= len module -> (forall v, 0 <= v <= 65535 -> P v) -> wp (parse_hex module i e) P.
Proof.
  intros He HP. unfold parse_hex. destruct (Z.ltb_spec i 0); [exact I|].
  apply parse_hex_loop_wp; [lia|lia|unfold len in He; lia|lia|exact HP].
Qed.

Lemma skip_tag_wp fuel module i (P : Z -> Prop) :
  0 <= i < len module -> len module - i <= Z.of_nat fuel ->
  (forall j, i <= j < len module -> P j) -> wp (skip_tag fuel module i) P.
Proof.
  revert i. induction fuel as [|fuel IH]; intros i Hi Hf HP; [lia|].
  cbn [skip_tag]. apply wp_bind, wp_get; [lia|]. destruct (32 <? at_ module i); [|apply HP; lia].
  destruct (Z.leb_spec (len module) (i + 1)); [exact I|].
  apply IH; [lia|lia|]. intros j Hj. apply HP. lia.
Qed.

Lemma scan_arg_wp fuel module i argStart argEnd (P : Z * Z * Z -> Prop) :
  0 <= i < len module -> len module - i <= Z.of_nat fuel ->
  -1 <= argStart < i \/ argStart = -1 -> -1 <= argEnd <= i ->
  (argStart < 0 \/ argEnd < 0 \/ argStart < argEnd) -> arg_range module argStart i ->
  (forall j s e, i <= j < len module -> at_ module j = 10 -> (s = -1 \/ (0 <= s /\ s < e)) -> 0 <= e <= j ->
     arg_range module s e -> P (j, s, e)) ->
  wp (scan_arg fuel module i argStart argEnd) P.
Proof.
  revert i argStart argEnd. induction fuel as [|fuel IH]; intros i s e Hi Hf Hs He Hse Har HP; [lia|].
  cbn [scan_arg]. apply wp_bind, wp_get; [lia|].
  destruct (Z.ltb_spec 32 (at_ module i)) as [V|V].
  - destruct (is_valid_char (at_ module i)) eqn:Ev; [|exact I].
    destruct (Z.leb_spec (len module) (i + 1)); [exact I|].
    apply IH; try lia; [destruct (Z.ltb_spec s 0); lia| |].
    + intros k Hk1 Hk2. destruct (Z.eq_dec k i) as [->|N]; [split; [auto|lia]|].
      destruct (Z.ltb_spec s 0); [lia|]. apply Har; lia.
    + intros j s' e' Hj. apply HP. lia.
  - destruct (Z.eqb_spec (at_ module i) 10) as [E|E].
    + cbn [wp]. apply HP; [lia|exact E|destruct (Z.ltb_spec e 0); lia|destruct (Z.ltb_spec e 0); lia|].
      intros k Hk1 Hk2. apply Har; [lia|destruct (Z.ltb_spec e 0); lia].
    + destruct (Z.leb_spec (len module) (i + 1)); [exact I|].
      apply IH; try lia; [destruct (Z.ltb_spec e 0); lia|destruct (Z.ltb_spec e 0); lia| |].
      * intros k Hk1 Hk2. destruct (Z.eq_dec k i) as [->|N]; [split; [lia|exact E]|]. apply Har; lia.
      * intros j s' e' Hj. apply HP. lia.
Qed.

(* ---- what the header lines preserve ---- *)
Record sap_inv (s : sap_state) : Prop := {
  si_songs : 1 <= i_songs (ss_info s) <= 32;
  si_defsong : 0 <= i_defsong (ss_info s) <= 31;
  si_fastplay : i_fastplay (ss_info s) = -1 \/ 1 <= i_fastplay (ss_info s) <= 32767;
  si_channels : 1 <= i_channels (ss_info s) <= 2;
  si_music : addr_or_none (i_music (ss_info s));
  si_init : addr_or_none (i_init (ss_info s));
  si_player : addr_or_none (i_player (ss_info s));
  si_covox : i_covox (ss_info s) = -1 \/ (i_covox (ss_info s) = 54784 /\ i_channels (ss_info s) = 2);
  si_durations : len (i_durations (ss_info s)) = 32
     /\ Forall (fun d => -1 <= d <= 5999999) (i_durations (ss_info s));
  si_loops : len (i_loops (ss_info s)) = 32;
  si_durIdx : 0 <= ss_durIdx s <= 32;
  si_author : Forall sap_char (i_author (ss_info s));
  si_title : Forall sap_char (i_title (ss_info s));
  si_date : Forall sap_char (i_date (ss_info s))
}.

Lemma Forall_upd {A} (P : A -> Prop) l i v : Forall P l -> P v -> Forall P (upd l i v).
Proof.
  intros H Hv. revert i. induction H as [|x l Hx Hl IH]; intros i; [constructor|].
  destruct i; cbn [upd]; constructor; auto.
Qed.

Lemma sap_time_wp module argStart argEnd s (P : sap_state -> Prop) :
  (argStart = -1 \/ (0 <= argStart /\ argStart < argEnd)) -> argEnd <= len module -> sap_inv s ->
  (forall s', sap_inv s' -> P s') -> wp (sap_time module argStart argEnd s) P.
Proof.
  intros Ha He Hs HP. destruct Hs. unfold sap_time.
  destruct (Z.leb_spec 32 (ss_durIdx s)) as [D|D]; [exact I|].
  destruct (Z.ltb_spec argStart 0) as [S|S]; [exact I|].
  apply wp_bind.
  assert (K : forall inf e, argStart <= e <= len module ->
     sap_inv (mkSapState inf (ss_type s) (ss_durIdx s)) ->
     wp (arg <- get_range module argStart e ;;
         d <- parse_duration (cstr arg) ;;
         l <- set_nth (i_durations inf) (ss_durIdx s) d ;;
         Ok (mkSapState (set_durations l inf) (ss_type s) (ss_durIdx s + 1))) P).
  { intros inf e H Hi. destruct Hi. cbn [ss_info ss_type ss_durIdx] in *.
    apply wp_bind, wp_get_range; [lia..|]. apply wp_bind.
    apply wp_intro; [apply parse_duration_defined|]. intros d Hd.
    apply parse_duration_spec, duration_syntax_range in Hd.
    apply wp_bind, wp_set_nth; [lia|]. apply HP.
    split; cbn [ss_info ss_type ss_durIdx set_durations i_songs i_defsong i_fastplay i_channels i_music i_init i_player i_covox i_durations i_loops i_author i_title i_date]; try assumption; try lia.
    split; [rewrite len_upd; lia|]. apply Forall_upd; [tauto|lia]. }
  assert (Ks : argEnd <= len module -> wp ('(inf, argEnd0) <- Ok (ss_info s, argEnd) ;;
     arg <- get_range module argStart argEnd0 ;;
         d <- parse_duration (cstr arg) ;;
         l <- set_nth (i_durations inf) (ss_durIdx s) d ;;
         Ok (mkSapState (set_durations l inf) (ss_type s) (ss_durIdx s + 1))) P).
  { intros _. cbn [bind]. apply K; [lia|]. split; cbn [ss_info ss_type ss_durIdx]; assumption. }
  destruct (Z.ltb_spec 5 (argEnd - argStart)) as [L|L]; [|apply Ks; lia].
  apply has_string_at_wp; [lia|change (len (str " LOOP")) with 5; lia|]. intros [|]; [|apply Ks; lia].
  apply wp_bind, wp_bind, wp_set_nth; [lia|]. cbn [wp].
  apply K; [lia|].
  split; cbn [ss_info ss_type ss_durIdx set_loops i_songs i_defsong i_fastplay i_channels i_music i_init i_player i_covox i_durations i_loops i_author i_title i_date]; try assumption.
  now rewrite len_upd.
Qed.

Ltac sap_fields := cbn [ss_info ss_type ss_durIdx ss_upd set_author set_title set_date set_songs set_defsong set_fastplay set_music set_init set_player set_covox set_channels set_ntsc set_type set_headerLen i_songs i_defsong i_fastplay i_channels i_music i_init i_player i_covox i_durations i_loops i_author i_title i_date i_type i_headerLen i_ntsc].

Lemma sap_line_wp module tag argStart argEnd s (P : sap_state -> Prop) :
  bytes module -> arg_range module argStart argEnd ->
  (argStart = -1 \/ (0 <= argStart /\ argStart < argEnd)) -> argEnd <= len module -> sap_inv s ->
  (forall s', sap_inv s' -> P s') -> wp (sap_line module tag argStart argEnd s) P.
Proof.
  intros Hb Har Ha He Hs HP. unfold sap_line. cbv zeta. pose proof Hs as Hs'. destruct Hs'.
  repeat match goal with |- wp (if eqb_list ?t ?n then _ else _) _ => destruct (eqb_list t n) end;
  try (apply sap_time_wp; assumption).
  all: try (apply wp_bind; apply parse_text_wp; [assumption..|]; intros t Ht; apply HP; split; sap_fields; assumption).
  all: try (apply wp_bind; apply parse_dec_wp; [assumption|lia|]; intros v Hv1 Hv2; apply HP; split; sap_fields; try assumption; lia).
  all: try (apply wp_bind; apply parse_hex_wp; [assumption|]; intros v Hv; apply HP; split; sap_fields; try assumption; unfold addr_or_none; lia).
  - destruct (Z.ltb_spec argStart 0); [exact I|]. apply wp_bind, wp_get; [lia|]. apply HP. split; sap_fields; assumption.
  - apply wp_bind. apply parse_hex_wp; [assumption|]. intros v Hv.
    destruct (Z.eqb_spec v 54784) as [->|N]; cbn [negb]; [|exact I].
    apply HP; split; sap_fields; try assumption; try lia.
  - apply HP; split; sap_fields; try assumption; lia.
  - apply HP; split; sap_fields; assumption.
  - apply HP. assumption.
Qed.

Lemma sap_loop_wp fuel module i s (P : Z * sap_state -> Prop) : bytes module ->
  0 <= i -> i + 6 < len module -> len module - i <= Z.of_nat fuel -> sap_inv s ->
  (forall j s', i <= j -> j + 6 < len module -> at_ module j = 255 -> sap_inv s' -> P (j, s')) ->
  wp (sap_loop fuel module i s) P.
Proof.
  intros Hb. revert i s. induction fuel as [|fuel IH]; intros i s Hi Hl Hf Hs HP; [lia|].
  cbn [sap_loop]. apply wp_bind, wp_get; [lia|].
  destruct (Z.eqb_spec (at_ module i) 255) as [E|E]; [apply HP; lia || assumption|].
  apply wp_bind. apply skip_tag_wp; [lia|unfold len; lia|]. intros j Hj.
  apply wp_bind, wp_get_range; [lia..|].
  apply wp_bind. apply scan_arg_wp; [lia|unfold len; lia|lia|lia|lia|intros ? ?; lia|].
  intros k as_ ae Hk _ Has Hae Har.
  destruct (Z.leb_spec (len module) (k + 1 + 6)) as [L|L]; [exact I|].
  apply wp_bind. apply sap_line_wp; [assumption|assumption|assumption|lia|assumption|]. intros s' Hs'.
  apply IH; [lia|lia|lia|assumption|]. intros j' s'' Hj'. apply HP. lia.
Qed.

Lemma sap_finish_wp module i s (P : info -> Prop) :
  5 <= i -> i + 6 < len module -> at_ module i = 255 -> sap_inv s ->
  (forall inf, sap_loaded module inf -> P inf) -> wp (sap_finish module i s) P.
Proof.
  intros H5 Hl E Hs HP. destruct Hs. unfold sap_finish, addr_or_none in *.
  destruct (Z.leb_spec (i_songs (ss_info s)) (i_defsong (ss_info s))) as [D|D]; [exact I|].
  assert (K : forall inf, (forall fp, 1 <= fp <= 32767 -> sap_loaded (255 :: nil) inf -> True) ->
     (forall fp, (fp = i_fastplay inf \/ i_fastplay inf < 0) -> 1 <= fp <= 32767 ->
        at_ module (i + 1) = 255 -> sap_loaded module (set_headerLen i (set_fastplay fp inf))) ->
     (i_fastplay inf = -1 \/ 1 <= i_fastplay inf <= 32767) ->
     wp (let inf0 := if i_fastplay inf <? 0 then set_fastplay (if i_ntsc inf then 262 else 312) inf else inf in
         c <- get module (i + 1) ;; if negb (c =? 255) then Fail else Ok (set_headerLen i inf0)) P).
  { intros inf _ Hld Hfp. cbv zeta. apply wp_bind, wp_get; [lia|].
    destruct (Z.eqb_spec (at_ module (i + 1)) 255) as [E2|E2]; cbn [negb]; [|exact I]. apply HP.
    destruct (Z.ltb_spec (i_fastplay inf) 0) as [F|F].
    - apply Hld; [lia|destruct (i_ntsc inf); lia|exact E2].
    - replace inf with (set_fastplay (i_fastplay inf) inf) by (destruct inf; reflexivity).
      apply Hld; [auto|lia|exact E2]. }
  assert (Kt : forall inf ty, inf = set_type ty (ss_info s) ->
     match ty with
            | SAP_B => 0 <= i_init inf /\ 0 <= i_player inf
            | SAP_C => 0 <= i_music inf /\ 0 <= i_player inf
            | SAP_D | SAP_S => 0 <= i_init inf
            | _ => False
     end ->
     forall fp, (fp = i_fastplay inf \/ i_fastplay inf < 0) -> 1 <= fp <= 32767 ->
        at_ module (i + 1) = 255 -> sap_loaded module (set_headerLen i (set_fastplay fp inf))).
  { intros inf ty -> Ht fp _ Hfp E2. split; sap_fields; unfold addr_or_none; try assumption; try lia. }
  destruct (ss_type s =? 66).
  { destruct (Z.ltb_spec (i_player (ss_info s)) 0); [exact I|].
    destruct (Z.ltb_spec (i_init (ss_info s)) 0); [exact I|]. cbn [bind]. apply K; [auto| |assumption].
    apply (Kt _ SAP_B eq_refl). sap_fields. lia. }
  destruct (ss_type s =? 67).
  { destruct (Z.ltb_spec (i_player (ss_info s)) 0); [exact I|].
    destruct (Z.ltb_spec (i_music (ss_info s)) 0); [exact I|]. cbn [bind]. apply K; [auto| |assumption].
    apply (Kt _ SAP_C eq_refl). sap_fields. lia. }
  destruct (ss_type s =? 68).
  { destruct (Z.ltb_spec (i_init (ss_info s)) 0); [exact I|]. cbn [bind]. apply K; [auto| |assumption].
    apply (Kt _ SAP_D eq_refl). sap_fields. lia. }
  destruct (ss_type s =? 83).
  { destruct (Z.ltb_spec (i_init (ss_info s)) 0); [exact I|]. cbn [bind].
    pose proof (Kt _ SAP_S eq_refl ltac:(sap_fields; lia)) as KS.
    destruct (Z.ltb_spec (i_fastplay (set_type SAP_S (ss_info s))) 0) as [F|F].
    - apply K; [auto| |sap_fields; lia]. intros fp [->|C] Hfp E2; [|cbn in C; lia].
      change (sap_loaded module (set_headerLen i (set_fastplay 78 (set_type SAP_S (ss_info s))))).
      apply KS; [right; exact F|lia|exact E2].
    - apply K; [auto|exact KS|assumption]. }
  exact I.
Qed.

Lemma parse_sap_wp self module (P : info -> Prop) : bytes module ->
  (forall inf, sap_loaded module inf -> P inf) -> wp (parse_sap (load_defaults self) module) P.
Proof.
  intros Hb HP. unfold parse_sap, validate_sap.
  destruct (Z.leb_spec 30 (len module)) as [L|L]; [|exact I].
  apply wp_bind. apply has_string_at_wp; [lia|change (len (str "SAP" ++ [13; 10])) with 5; lia|].
  intros [|]; cbn [negb]; [|exact I].
  apply wp_bind. apply sap_loop_wp; [assumption|lia|lia|unfold len; lia| |].
  - split; unfold load_defaults; sap_fields; unfold addr_or_none;
      try lia; try (constructor; fail); try reflexivity.
    split; [reflexivity|]. repeat constructor; lia.
  - intros j s' H1 H2 H3 H4. apply sap_finish_wp; assumption.
Qed.
