(* Saving never stores outside the output window. *)
From Coq Require Import String.
From Verif Require Import Base BaseFacts InfoModel InfoSpec Resources WriterModel FlashPackModel WriteModel SapSpec WindowSpec WriterProofs.

(* f stays in the window when it returns; otherwise the reason is one of B *)
Definition safe (B : ub_reason -> Prop) (f : wr) : Prop :=
  forall w, wf w -> match f w with Ok (_, w') => stays w w' | UB r => B r | _ => True end.

Definition nice {A} (B : ub_reason -> Prop) (m : outcome A) : Prop := match m with UB r => B r | _ => True end.

Section SAFE.
Variable B : ub_reason -> Prop.

Lemma safe_emits f l : emits f l -> safe B f.
Proof. intros H w Hw. destruct (emits_confined f l H w Hw) as (b & w' & -> & S). exact S. Qed.

Lemma safe_wok : safe B wok.
Proof. intros w Hw. now apply stays_refl. Qed.

Lemma safe_wfail : safe B wfail.
Proof. intros w Hw. now apply stays_refl. Qed.

Lemma safe_seq f g : safe B f -> safe B g -> safe B (wseq f g).
Proof.
  intros Hf Hg w Hw. unfold wseq. specialize (Hf w Hw). destruct (f w) as [[[|] w']| | |]; cbn [bind]; try exact Hf.
  specialize (Hg w' (st_wf _ _ Hf)). destruct (g w') as [[b w'']| | |]; try exact Hg.
  now apply (stays_trans w w').
Qed.

Lemma safe_seqs l : Forall (safe B) l -> safe B (wseqs l).
Proof. induction 1; cbn [wseqs]; [apply safe_wok|now apply safe_seq]. Qed.

Lemma safe_if (b : bool) f : safe B f -> safe B (wif b f).
Proof. destruct b; cbn [wif]; [auto|intros _; apply safe_wok]. Qed.

Lemma safe_bind {A} (m : outcome A) k : nice B m -> (forall a, m = Ok a -> safe B (k a)) -> safe B (wbind m k).
Proof. intros Hm H w Hw. unfold wbind. destruct m as [a| | |]; cbn [bind]; try exact I; [now apply H|exact Hm]. Qed.

Lemma safe_byte v : safe B (write_byte v).
Proof. apply safe_emits with [u8 v]. apply emits_byte. Qed.

Lemma safe_word v : safe B (write_word v).
Proof. eapply safe_emits. apply emits_word. Qed.

Lemma safe_string v : safe B (write_string v).
Proof. eapply safe_emits. apply emits_string. Qed.

Lemma safe_bytes array i j : B UbRead -> B UbNegSize -> safe B (write_bytes array i j).
Proof.
  intros HR HN w Hw. destruct (Z.ltb_spec (j - i) 0) as [Hn|Hn].
  - unfold write_bytes. destruct (Z.ltb_spec (w_end w) (w_off w + (j - i))); [now apply stays_refl|].
    unfold get_range. replace (j - i <? 0) with true by lia. exact HN.
  - destruct ((i <? 0) || (len array <? j)) eqn:E.
    + unfold write_bytes. destruct (Z.ltb_spec (w_end w) (w_off w + (j - i))); [now apply stays_refl|].
      unfold get_range. replace (j - i <? 0) with false by lia. rewrite E. exact HR.
    + destruct (emits_confined _ _ (emits_bytes array i j ltac:(lia) ltac:(lia) ltac:(lia)) w Hw) as (b & w' & -> & S). exact S.
Qed.

Lemma safe_bytes_full l : safe B (write_bytes l 0 (len l)).
Proof. eapply safe_emits. apply emits_bytes_full. Qed.

Lemma safe_choice (b : bool) f g : safe B f -> safe B g -> safe B (if b then f else g).
Proof. now destruct b. Qed.

Lemma safe_ext f g : (forall w, f w = g w) -> safe B g -> safe B f.
Proof. intros E H w Hw. rewrite E. now apply H. Qed.

Lemma nice_get l i : B UbRead -> nice B (get l i).
Proof. intros H. unfold get. destruct (i <? 0); [exact H|]. destruct (nth_error l (Z.to_nat i)); [exact I|exact H]. Qed.

Lemma nice_bind {A C} (m : outcome A) (k : A -> outcome C) : nice B m -> (forall a, nice B (k a)) -> nice B (bind m k).
Proof. intros Hm H. destruct m as [a| | |]; cbn [bind]; try exact I; [apply H|exact Hm]. Qed.

Lemma nice_get_word l i : B UbRead -> nice B (get_word l i).
Proof. intros H. unfold get_word. apply nice_bind; [now apply nice_get|]. intros a. apply nice_bind; [now apply nice_get|]. intros b. exact I. Qed.

Lemma safe_dec fuel v : safe B (write_dec fuel v).
Proof.
  revert v. induction fuel as [|fuel IH]; intros v; cbn [write_dec]; destruct (10 <=? v); try apply safe_byte.
  - intros w Hw. exact I.
  - apply safe_seq; [apply IH|apply safe_byte].
Qed.

End SAFE.

Ltac safe_step :=
  match goal with
  | |- safe _ (wseqs _) => apply safe_seqs
  | |- Forall _ (_ :: _) => apply Forall_cons
  | |- Forall _ [] => apply Forall_nil
  | |- safe _ (write_byte _) => apply safe_byte
  | |- safe _ (write_word _) => apply safe_word
  | |- safe _ (write_string _) => apply safe_string
  | |- safe _ (write_dec _ _) => apply safe_dec
  | |- safe _ (write_bytes _ _ _) => apply safe_bytes
  | |- safe _ (wif _ _) => apply safe_if
  | |- safe _ wok => apply safe_wok
  | |- safe _ wfail => apply safe_wfail
  | |- safe _ (wseq _ _) => apply safe_seq
  | |- safe _ (wbind _ _) => apply safe_bind; [|intros]
  | |- safe _ (if ?b then _ else _) => apply safe_choice
  | |- nice _ (get _ _) => apply nice_get
  | |- nice _ (get_word _ _) => apply nice_get_word
  | |- nice _ (Ok _) => exact I
  | |- nice _ (bind _ _) => apply nice_bind; [|intros]
  end.
Ltac safe_auto := repeat safe_step.

Section WRITERS.
Variable B : ub_reason -> Prop.
Hypothesis HR : B UbRead.
Hypothesis HN : B UbNegSize.

Lemma nice_duration inf song : nice B (api_get_duration inf song).
Proof. unfold api_get_duration. apply nice_get. exact HR. Qed.

Lemma nice_loop inf song : nice B (api_get_loop inf song).
Proof. unfold api_get_loop. destruct (song <? 0); [exact HR|]. destruct (nth_error _ _); [exact I|exact HR]. Qed.

Lemma safe_times fuel inf song : safe B (write_times fuel inf song).
Proof.
  revert song. induction fuel as [|fuel IH]; intros song; cbn [write_times]; [apply safe_wok|].
  apply safe_bind; [apply nice_duration|]. intros d _. apply safe_choice; [apply safe_wok|].
  apply safe_bind; [apply nice_loop|]. intros l _. safe_auto; try assumption. apply IH.
Qed.

Lemma safe_text_tag tag v : safe B (write_text_sap_tag tag v).
Proof. unfold write_text_sap_tag. safe_auto. Qed.

Lemma safe_dec_tag tag v : safe B (write_dec_sap_tag tag v).
Proof. unfold write_dec_sap_tag. safe_auto. Qed.

Lemma safe_hex_tag tag v : safe B (write_hex_sap_tag tag v).
Proof. unfold write_hex_sap_tag, write_hex_digit. safe_auto. Qed.

Lemma safe_sap_header inf type init player : safe B (write_sap_header inf type init player).
Proof.
  unfold write_sap_header. safe_auto; try apply safe_text_tag; try apply safe_dec_tag; try apply safe_hex_tag; apply safe_times.
Qed.

Lemma safe_executable_header xex inf type init player : safe B (write_executable_header xex inf type init player).
Proof. unfold write_executable_header. safe_auto. apply safe_sap_header. Qed.

Lemma safe_cmc_init xex inf player : safe B (write_cmc_init xex inf player).
Proof. unfold write_cmc_init, write_pla_tax_lda0. safe_auto. Qed.

Lemma safe_from_sap xex inf type module : safe B (write_executable_from_sap xex inf type module).
Proof. unfold write_executable_from_sap. safe_auto; try assumption. apply safe_executable_header. Qed.

Lemma nice_tmc_addresses inf player module : nice B (tmc_addresses inf player module).
Proof. unfold tmc_addresses. safe_auto; assumption. Qed.

Lemma safe_executable xex inf module : safe B (write_executable xex inf module).
Proof.
  unfold write_executable. destruct (player_routine inf) as [routine|].
  - apply safe_bind; [now apply nice_get_word|]. intros player _. apply safe_bind; [now apply nice_get_word|]. intros last _.
    apply safe_choice; [apply safe_wfail|]. unfold write_executable_native. cbv zeta.
    destruct (i_type inf); unfold write_pla_tax_lda0; safe_auto; try assumption;
    try apply safe_executable_header; try apply safe_cmc_init; try apply nice_tmc_addresses.
    destruct a as [[pf p2] sa]. safe_auto; try assumption; apply safe_executable_header.
  - destruct (i_type inf); safe_auto; try apply safe_from_sap; apply safe_cmc_init.
Qed.

(* ---- native modules ---- *)
Lemma safe_n_copy n e : safe B (n_copy n e).
Proof. intros w Hw. unfold n_copy. exact (safe_bytes B _ _ _ HR HN w Hw). Qed.

Lemma safe_relocate_bytes_loop n lo hi count shift : safe B (n_relocate_bytes_loop n lo hi count shift).
Proof.
  revert lo hi. induction count as [|count IH]; intros lo hi; cbn [n_relocate_bytes_loop]; safe_auto; try assumption. apply IH.
Qed.

Lemma safe_relocate_bytes n lo hi count shift : safe B (n_relocate_bytes n lo hi count shift).
Proof. apply safe_relocate_bytes_loop. Qed.

Lemma safe_low_high n count : safe B (n_relocate_low_high n count).
Proof.
  intros w Hw. unfold n_relocate_low_high. revert w Hw.
  assert (H : forall o, safe B (wseq (n_relocate_bytes n o (o + count) count 0) (n_relocate_bytes n o (o + count) count 8))).
  { intros o. apply safe_seq; apply safe_relocate_bytes. }
  intros w Hw. exact (H (w_off w) w Hw).
Qed.

Lemma safe_words n count : safe B (n_relocate_words n count).
Proof.
  induction count as [|count IH]; intros w Hw; cbn [n_relocate_words]; [now apply stays_refl|].
  assert (H : forall o, safe B (wbind (n_get_word n o) (fun address => wseq (write_word (relocate (n_diff n) address)) (n_relocate_words n count)))).
  { intros o. safe_auto; try assumption. unfold n_get_word. now apply nice_get_word. }
  exact (H (w_off w) w Hw).
Qed.

Lemma safe_rmt_song fuel n o e : safe B (n_rmt_song fuel n o e).
Proof.
  revert o. induction fuel as [|fuel IH]; intros o; cbn [n_rmt_song]; destruct (o + 3 <? e); try apply safe_wok.
  - intros w Hw. exact I.
  - unfold n_get_byte. cbv zeta. safe_auto; try assumption; try apply safe_n_copy; try apply safe_words; apply IH.
Qed.

Ltac native_step :=
  match goal with
  | |- safe _ (n_copy _ _) => apply safe_n_copy
  | |- safe _ (n_relocate_words _ _) => apply safe_words
  | |- safe _ (n_relocate_low_high _ _) => apply safe_low_high
  | |- safe _ (n_relocate_bytes _ _ _ _ _) => apply safe_relocate_bytes
  | |- safe _ (n_rmt_song _ _ _ _) => apply safe_rmt_song
  | |- nice _ (n_get_word _ _) => apply nice_get_word
  | |- nice _ (n_get_byte _ _) => apply nice_get
  end.

Lemma safe_n_write module o inf type l : safe B (n_write module o inf type l).
Proof.
  unfold n_write. cbv zeta. safe_auto; try assumption; try native_step; try assumption.
  destruct type; repeat (safe_step || native_step); assumption.
Qed.

Lemma nice_has_string module o s : nice B (has_string_at module o s).
Proof.
  revert o. induction s as [|c s IH]; intros o; cbn [has_string_at]; [exact I|].
  apply nice_bind; [now apply nice_get|]. intros x. destruct (negb _); [exact I|apply IH].
Qed.

Lemma nice_rmt_offset inf module : nice B (get_rmt_sap_offset inf module).
Proof.
  unfold get_rmt_sap_offset. destruct (negb _); [exact I|]. safe_auto; try assumption. cbv zeta.
  destruct (_ <=? _); [exact I|]. apply nice_bind; [apply nice_has_string|]. intros b. exact I.
Qed.

Lemma nice_original_type inf module : nice B (get_original_module_type inf module).
Proof.
  unfold get_original_module_type. cbv zeta. destruct (i_type inf); try exact I.
  - destruct (_ && _); [exact I|]. destruct (_ || _); [exact I|].
    apply nice_bind. { destruct (_ =? _); [exact I|]. apply nice_bind; [apply nice_rmt_offset|]. intros; exact I. }
    intros b. destruct b; [exact I|]. repeat match goal with |- nice _ (if ?b then _ else _) => destruct b end; exact I.
  - destruct (_ && _); [|exact I]. destruct (_ <? _); [exact I|].
    apply nice_bind; [now apply nice_get|]. intros a. destruct (_ =? _); [exact I|].
    apply nice_bind; [now apply nice_get|]. intros b. exact I.
Qed.

Lemma safe_native inf module : safe B (write_native inf module).
Proof.
  unfold write_native.
  destruct (i_type inf); try apply safe_n_write; try (apply safe_bytes; assumption).
  all: apply safe_bind; [apply nice_rmt_offset|]; intros o _; apply safe_choice; [apply safe_n_write|].
  all: apply safe_bind; [now apply nice_get_word|]; intros last _; apply safe_bind; [now apply nice_get_word|]; intros first _.
  all: cbv zeta; apply safe_choice; [apply safe_wfail|]; apply safe_bind; [apply nice_original_type|]; intros type _.
  all: destruct type; try apply safe_n_write; apply safe_bytes; assumption.
Qed.

Lemma nice_original_ext inf module : nice B (get_original_module_ext inf module).
Proof. unfold get_original_module_ext. apply nice_bind; [apply nice_original_type|]. intros t. exact I. Qed.

Lemma safe_write target inf module tag : get_packed_ext target <> 7890296 -> safe B (api_write target inf module tag).
Proof.
  intros Hx w Hw. unfold api_write. destruct (get_packed_ext target =? 7364979).
  { exact (safe_executable false inf module w Hw). }
  replace (get_packed_ext target =? 7890296) with false by lia.
  pose proof (nice_original_ext inf module) as HE. destruct (get_original_module_ext inf module) as [[e|]| | |]; cbn [bind].
  - destruct (_ || _); [exact (safe_native inf module w Hw)|now apply stays_refl].
  - now apply stays_refl.
  - exact I.
  - exact HE.
  - exact I.
Qed.

(* ---- executables ---- *)
Lemma safe_dl_lines fuel i n v : safe B (write_dl_lines fuel i n v).
Proof.
  revert i. induction fuel as [|fuel IH]; intros i; cbn [write_dl_lines]; destruct (i <? n); try apply safe_wok.
  - intros w Hw. exact I.
  - safe_auto. apply IH.
Qed.

Lemma safe_repeat k v : safe B (write_repeat k v).
Proof. induction k as [|k IH]; cbn [write_repeat]; [apply safe_wok|]. apply safe_seq; [apply safe_byte|exact IH]. Qed.

Lemma safe_xex_info inf : nice B (xex_title inf) -> nice B (xex_author inf) -> nice B (xex_other inf) -> safe B (write_xex_info inf).
Proof.
  intros H1 H2 H3. unfold write_xex_info. cbv zeta.
  apply safe_bind; [exact H1|]; intros t _; apply safe_bind; [exact H2|]; intros a _; apply safe_bind; [exact H3|]; intros o _.
  unfold write_xex_info_text_dl. safe_auto; try assumption; try apply safe_repeat; apply safe_dl_lines.
Qed.

Lemma safe_xex_tail inf tag init player :
  nice B (xex_title inf) -> nice B (xex_author inf) -> nice B (xex_other inf) -> safe B (write_xex_tail inf tag init player).
Proof.
  intros H1 H2 H3. unfold write_xex_tail. apply safe_seqs. apply Forall_cons.
  - destruct (i_type inf); safe_auto; assumption.
  - safe_auto. now apply safe_xex_info.
Qed.

Lemma nice_init_player inf module : nice B (exec_init_player inf module).
Proof.
  unfold exec_init_player. destruct (player_routine inf) as [routine|].
  - apply nice_bind; [now apply nice_get_word|]. intros p. destruct (i_type inf); try exact I.
    apply nice_bind; [apply nice_tmc_addresses|]. intros [[a b] c]. exact I.
  - destruct (i_type inf); exact I.
Qed.

Lemma safe_packed c a1 a2 a3 a4 : safe B (write_packed c a1 a2 a3 a4).
Proof. unfold write_packed. safe_auto; assumption. Qed.
End WRITERS.

(* ---- statements ---- *)
Lemma at_firstn l n i : 0 <= i < n -> at_ (firstn (Z.to_nat n) l) i = at_ l i.
Proof.
  intros H. unfold at_. rewrite <- (firstn_skipn (Z.to_nat n) l) at 2.
  destruct (Z_lt_ge_dec i (len l)) as [Hi|Hi].
  - rewrite app_nth1; [reflexivity|]. rewrite firstn_length. unfold len in *. lia.
  - rewrite skipn_all2 by (unfold len in *; lia). now rewrite app_nil_r.
Qed.

Lemma at_skipn l n i : 0 <= n <= i -> n <= len l -> at_ (skipn (Z.to_nat n) l) (i - n) = at_ l i.
Proof.
  intros H Hn. unfold at_. rewrite <- (firstn_skipn (Z.to_nat n) l) at 2.
  rewrite app_nth2; rewrite firstn_length; unfold len in *; [|lia]. f_equal. lia.
Qed.

Lemma stays_inside w w' : wf w -> stays w w' -> only_inside (w_off w) (w_end w) (w_out w) (w_out w')
  /\ w_off w <= w_off w' <= w_end w.
Proof.
  intros [Hw1 Hw2] [S1 S2 S3 S4 S5 S6]. split; [split|].
  - assumption.
  - intros i Hi [H|H].
    + rewrite <- (at_firstn (w_out w') (w_off w) i), <- (at_firstn (w_out w) (w_off w) i) by lia. now rewrite S5.
    + rewrite <- (at_skipn (w_out w') (w_end w) i), <- (at_skipn (w_out w) (w_end w) i) by lia. now rewrite S6.
  - destruct S1. lia.
Qed.

Definition not_write (r : ub_reason) : Prop := r <> UbWrite.

(* every target but the executable *)
Lemma write_window target inf module tag w :
  wf w -> get_packed_ext target <> 7890296 ->
  match api_write target inf module tag w with
  | Ok (_, w') => only_inside (w_off w) (w_end w) (w_out w) (w_out w') /\ w_off w <= w_off w' <= w_end w
  | UB r => r = UbRead \/ r = UbNegSize
  | _ => True
  end.
Proof.
  intros Hw Hx. pose proof (safe_write (fun r => r = UbRead \/ r = UbNegSize) (or_introl eq_refl) (or_intror eq_refl) target inf module tag Hx w Hw) as H.
  destruct (api_write target inf module tag w) as [[b w']| | |]; try exact H. now apply stays_inside.
Qed.

(* the executable starts over at index 0 *)
Lemma xex_window target inf module tag w b w' :
  wf w -> get_packed_ext target = 7890296 -> api_write target inf module tag w = Ok (b, w') ->
  only_inside 0 (w_end w) (w_out w) (w_out w') /\ 0 <= w_off w' <= w_end w
  /\ (b = true -> at_ (w_out w') 0 = 255 /\ at_ (w_out w') 1 = 255 /\ 100 < w_off w').
Proof.
  intros Hw Hx E. unfold api_write in E. rewrite Hx in E. cbn [Z.eqb Pos.eqb] in E. cbn [wseqs] in E.
  set (B := fun _ : ub_reason => True).
  pose proof (safe_executable B I I true inf module w Hw) as S1. unfold wseq at 1 in E.
  destruct (write_executable true inf module w) as [[b1 w1]| | |]; cbn [bind] in E; try discriminate.
  destruct b1. 2: { injection E as <- <-. destruct (stays_inside _ _ Hw S1) as [[L H] K]. destruct Hw as [? ?].
    split; [split; [exact L|]; intros i Hi Ho; apply H; lia|]. split; [lia|discriminate]. }
  set (f := wbind _ _) in E.
  assert (Hf : safe B f).
  { unfold f. apply safe_bind; [now apply nice_init_player|]. intros [i p] _. apply safe_xex_tail; try exact I.
    all: match goal with |- nice _ ?m => destruct m; exact I end. }
  unfold wseq at 1 in E. pose proof (Hf w1 (st_wf _ _ S1)) as S2. clearbody f.
  destruct (f w1) as [[b2 w2]| | |]; cbn [bind] in E; try discriminate.
  pose proof (stays_trans _ _ _ S1 S2) as S12.
  destruct b2. 2: { injection E as <- <-. destruct (stays_inside _ _ Hw S12) as [[L H] K]. destruct Hw as [? ?].
    split; [split; [exact L|]; intros i Hi Ho; apply H; lia|]. split; [lia|discriminate]. }
  unfold wseq in E. unfold fp_compress in E at 1.
  match type of E with context [match ?m with Ok _ => _ | Fail => _ | UB _ => _ | OutOfFuel => _ end] => destruct m as [[[[[c a1] a2] a3] a4]| | |] end;
    cbn [bind] in E; try discriminate.
  - set (w0 := mkW (w_out w2) 0 (w_end w2)) in E.
    assert (W0 : wf w0) by (destruct (st_wf _ _ S12); unfold w0; split; cbn [w_off w_end w_out]; lia).
    pose proof (safe_packed B I I c a1 a2 a3 a4 w0 W0) as S3.
    destruct (write_packed c a1 a2 a3 a4 w0) as [[b3 w3]| | |] eqn:E3; cbn [bind] in E; try discriminate.
    destruct (stays_inside _ _ W0 S3) as [[L3 H3] K3]. destruct (stays_inside _ _ Hw S12) as [[L H] K].
    destruct S12 as [S121 S122 S123 S124 S125 S126]. unfold w0 in *. cbn [w_off w_end w_out] in *. destruct Hw as [Hw1 Hw2].
    assert (R : only_inside 0 (w_end w) (w_out w) (w_out w3)).
    { split; [lia|]. intros i Hi Ho. rewrite H3 by lia. apply H; lia. }
    destruct b3.
    + unfold wok in E. injection E as <- <-. split; [exact R|]. split; [lia|]. intros _.
      assert (EM : exists l, emits (write_packed c a1 a2 a3 a4) ([255; 255] ++ l) /\ 103 <= len l).
      { eexists. split.
        - unfold write_packed. apply emits_seqs. apply (ea_cons _ _ [255; 255]); [apply (emits_word 65535)|].
          repeat (eapply ea_cons; [first [apply emits_byte|apply emits_word|apply emits_bytes_full]|]). apply ea_nil.
        - rewrite !len_app, !len_cons, !len_nil. pose proof (len_nonneg c). lia. }
      destruct EM as (l & EM & Hl). destruct (emits_ok _ _ _ _ EM W0 E3) as [-> Hfit]. cbn [put w_out w_off w_end] in *.
      unfold splice. cbn [Z.to_nat firstn app]. rewrite len_cons, len_cons. split; [reflexivity|]. split; [reflexivity|lia].
    + injection E as <- <-. split; [exact R|]. split; [lia|discriminate].
  - injection E as <- <-. destruct (stays_inside _ _ Hw S12) as [[L H] K]. destruct Hw as [? ?].
    split; [split; [exact L|]; intros i Hi Ho; apply H; lia|]. split; [lia|discriminate].
Qed.
