(* ASAPNativeModuleWriter_Write stores the module for another address. *)
From Verif Require Import Base BaseFacts InfoModel WriterModel WriterProofs SapSpec WindowSpec SaveProofs MoveSpec MoveProofs.

(* ------------------------------------------------------------------ *)
(* cells                                                               *)
Lemma words_lo first count j : 0 <= j < count -> words first count (first + 2 * j) = Some (first + 2 * j, first + 2 * j + 1).
Proof.
  intros H. unfold words. replace ((first <=? first + 2 * j) && (first + 2 * j <? first + 2 * count)) with true by lia.
  replace (first + 2 * j - (first + 2 * j - first) mod 2) with (first + 2 * j) by lia. reflexivity.
Qed.

Lemma words_hi first count j : 0 <= j < count -> words first count (first + 2 * j + 1) = Some (first + 2 * j, first + 2 * j + 1).
Proof.
  intros H. unfold words. replace ((first <=? first + 2 * j + 1) && (first + 2 * j + 1 <? first + 2 * count)) with true by lia.
  replace (first + 2 * j + 1 - (first + 2 * j + 1 - first) mod 2) with (first + 2 * j) by lia. reflexivity.
Qed.

Lemma words_out first count i : i < first \/ first + 2 * count <= i -> words first count i = None.
Proof. intros H. unfold words. now replace ((first <=? i) && (i <? first + 2 * count)) with false by lia. Qed.

Lemma tables_lo lo hi count j : 0 <= j < count -> tables lo hi count (lo + j) = Some (lo + j, hi + j).
Proof. intros H. unfold tables. replace ((lo <=? lo + j) && (lo + j <? lo + count)) with true by lia. now replace (lo + j - lo + hi) with (hi + j) by lia. Qed.

Lemma tables_hi lo hi count j : 0 <= j < count -> lo + count <= hi -> tables lo hi count (hi + j) = Some (lo + j, hi + j).
Proof.
  intros H1 H2. unfold tables. replace ((lo <=? hi + j) && (hi + j <? lo + count)) with false by lia. replace ((hi <=? hi + j) && (hi + j <? hi + count)) with true by lia.
  now replace (hi + j - hi + lo) with (lo + j) by lia.
Qed.

Lemma tables_out lo hi count i : (i < lo \/ lo + count <= i) -> (i < hi \/ hi + count <= i) -> tables lo hi count i = None.
Proof.
  intros H1 H2. unfold tables. replace ((lo <=? i) && (i <? lo + count)) with false by lia. now replace ((hi <=? i) && (i <? hi + count)) with false by lia.
Qed.

Lemma either_none a b : a = None -> either a b = b. Proof. now intros ->. Qed.
Lemma either_some a b c : a = Some c -> either a b = Some c. Proof. now intros ->. Qed.

Lemma goto_out f i : i < rmt_song f \/ rmt_end f <= i -> rmt_goto f i = None.
Proof. intros H. unfold rmt_goto. now replace ((rmt_song f <=? i) && (i <? rmt_end f)) with false by lia. Qed.

Lemma names_out f i : i < rmt_end f \/ rmt_end f + 4 <= i -> rmt_names f i = None.
Proof. intros H. unfold rmt_names. destruct (rmt_end f + 5 <=? len f); [apply words_out; lia|reflexivity]. Qed.

(* find the cell of an offset by arithmetic *)
Ltac cell_none := repeat (rewrite either_none; [|first [apply words_out; lia | apply tables_out; lia | apply goto_out; lia | apply names_out; lia]]);
  first [apply words_out; lia | apply tables_out; lia | apply names_out; lia | apply goto_out; lia].

Section Write.
Variables (module : list Z) (off : Z) (f : list Z) (d : Z) (t : module_type).
Hypothesis Hoff : 0 <= off.
Hypothesis Hlen : off + len f <= len module.
Hypothesis Hf : forall i, 0 <= i < len f -> at_ f i = at_ module (off + i).
Hypothesis Hb : bytes module.
Let n := mkN module off d.
Let g := new_byte t d f.

Lemma g_lo lo hi : cell_of t f lo = Some (lo, hi) -> 0 <= lo < len f -> 0 <= hi < len f -> g lo = lohi n lo hi mod 256.
Proof. intros E H1 H2. unfold g, new_byte. rewrite E. cbn [fst]. rewrite Z.eqb_refl. unfold lohi, address. cbn [fst snd n n_module n_offset n_diff]. now rewrite !Hf by assumption. Qed.

Lemma g_hi lo hi : cell_of t f hi = Some (lo, hi) -> lo <> hi -> 0 <= lo < len f -> 0 <= hi < len f -> g hi = lohi n lo hi / 256 mod 256.
Proof. intros E N H1 H2. unfold g, new_byte. rewrite E. cbn [fst]. replace (hi =? lo) with false by lia. unfold lohi, address. cbn [fst snd n n_module n_offset n_diff]. now rewrite !Hf by assumption. Qed.

Lemma g_none i : cell_of t f i = None -> 0 <= i < len f -> g i = at_ module (off + i).
Proof. intros E H. unfold g, new_byte. rewrite E. now apply Hf. Qed.

Notation to := (emits_to g).

Lemma copy_to o e : 0 <= o <= e -> e <= len f -> (forall i, o <= i < e -> cell_of t f i = None) -> to o (n_copy n e) e.
Proof. intros H1 H2 H. apply (to_copy n (len f) g); try assumption. intros i Hi. apply g_none; [now apply H|lia]. Qed.

Lemma words_to o k : 0 <= o -> o + 2 * Z.of_nat k <= len f ->
  (forall j, 0 <= j < Z.of_nat k -> cell_of t f (o + 2 * j) = Some (o + 2 * j, o + 2 * j + 1) /\ cell_of t f (o + 2 * j + 1) = Some (o + 2 * j, o + 2 * j + 1)) ->
  to o (n_relocate_words n k) (o + 2 * Z.of_nat k).
Proof.
  intros H1 H2 H. apply (to_words n (len f) g); try assumption. intros j Hj. destruct (H j Hj) as [C1 C2]. split; [apply g_lo; [exact C1|lia|lia]|apply g_hi; [exact C2|lia|lia|lia]].
Qed.

Lemma low_high_to o count : 0 <= o -> 0 <= count -> o + 2 * count <= len f ->
  (forall j, 0 <= j < count -> cell_of t f (o + j) = Some (o + j, o + count + j) /\ cell_of t f (o + count + j) = Some (o + j, o + count + j)) ->
  to o (n_relocate_low_high n count) (o + 2 * count).
Proof.
  intros H1 H2 H3 H. apply (to_low_high n (len f) g); try assumption. intros j Hj. destruct (H j Hj) as [C1 C2]. split; [apply g_lo; [exact C1|lia|lia]|apply g_hi; [exact C2|lia|lia|lia]].
Qed.

Lemma bytes_to lo hi count shift o : (shift = 0 /\ o = lo \/ shift = 8 /\ o = hi) -> 0 <= lo -> lo + count <= hi -> 0 <= count -> hi + count <= len f ->
  (forall j, 0 <= j < count -> cell_of t f (lo + j) = Some (lo + j, hi + j) /\ cell_of t f (hi + j) = Some (lo + j, hi + j)) ->
  to o (n_relocate_bytes n lo hi count shift) (o + count).
Proof.
  intros Hs H1 H2 H3 H4 H. apply (to_relocate_bytes n (len f) g); try assumption; try lia; try (cbn [n n_offset n_module]; assumption). intros j Hj. destruct (H j Hj) as [C1 C2]. destruct Hs as [[-> ->]|[-> ->]].
  - rewrite (g_lo (lo + j) (hi + j)) by (assumption || lia). change (2 ^ 0) with 1. now rewrite Z.div_1_r.
  - rewrite (g_hi (lo + j) (hi + j)) by (assumption || lia). reflexivity.
Qed.

Lemma bind_to {A} (m : outcome A) a k o e : m = Ok a -> to o (k a) e -> to o (wbind m k) e.
Proof. intros -> [H E]. split; [exact H|]. exact E. Qed.

Lemma src_byte i : 0 <= i < len f -> n_get_byte n i = Ok (at_ f i).
Proof. intros H. unfold n_get_byte. cbn [n n_module n_offset]. rewrite get_ok by lia. now rewrite Hf. Qed.

Lemma src_word i : 0 <= i -> i + 1 < len f -> n_get_word n i = Ok (file_word f i).
Proof. intros H1 H2. unfold n_get_word. cbn [n n_module n_offset]. rewrite get_word_ok by lia. f_equal. unfold file_word. rewrite !Hf by lia. now replace (off + (i + 1)) with (off + i + 1) by lia. Qed.

Lemma seqs_nil o : to o (wseqs []) o.
Proof. apply to_nil. Qed.
Lemma seqs_cons o a e x r : to o x a -> to a (wseqs r) e -> to o (wseqs (x :: r)) e.
Proof. intros. cbn [wseqs]. now apply to_seq with (a := a). Qed.

(* ---- fixed layouts ---- *)
Lemma head_words : t <> RMT -> native t -> (forall j, 0 <= j < 3 -> cell_of t f (0 + 2 * j) = Some (0 + 2 * j, 0 + 2 * j + 1) /\ cell_of t f (0 + 2 * j + 1) = Some (0 + 2 * j, 0 + 2 * j + 1)).
Proof.
  intros NR NT j Hj. unfold cell_of. pose proof (words_lo 0 3 j Hj) as W1. pose proof (words_hi 0 3 j Hj) as W2. pose proof (words_lo 0 99 j ltac:(lia)) as W3. pose proof (words_hi 0 99 j ltac:(lia)) as W4.
  repeat (destruct NT as [<-|NT]; [try congruence; rewrite ?W1, ?W2, ?W3, ?W4; now split|]). destruct NT.
Qed.

Lemma cmc_to : In t [CMC; CM3; CMR; CMS] -> 154 <= len f -> to 0 (wseqs [ n_relocate_words n 3; n_copy n 26; n_relocate_low_high n 64; n_copy n (len f) ]) (len f).
Proof.
  intros Ht HL. assert (C : forall i, cell_of t f i = either (words 0 3 i) (tables 26 90 64 i)) by (intros i; repeat (destruct Ht as [<-|Ht]; [reflexivity|]); destruct Ht).
  eapply seqs_cons; [apply (words_to 0 3); [lia|lia|]|eapply seqs_cons; [apply copy_to; [lia|lia|]|eapply seqs_cons; [apply (low_high_to 26 64); [lia|lia|lia|]|eapply seqs_cons; [apply copy_to; [lia|lia|]|apply seqs_nil]]]].
  - intros j Hj. rewrite !C. change (Z.of_nat 3) with 3 in Hj. rewrite (words_lo 0 3 j Hj), (words_hi 0 3 j Hj). now split.
  - intros i Hi. rewrite C. cell_none.
  - intros j Hj. rewrite !C. rewrite !either_none by (apply words_out; lia). split; [now apply (tables_lo 26 90 64)|now apply (tables_hi 26 90 64)].
  - intros i Hi. rewrite C. cell_none.
Qed.

Lemma dlt_to : t = DLT -> 6 <= len f -> to 0 (wseqs [ n_relocate_words n 3; n_copy n (len f) ]) (len f).
Proof.
  intros Ht HL. assert (C : forall i, cell_of t f i = words 0 3 i) by (now rewrite Ht).
  eapply seqs_cons; [apply (words_to 0 3); [lia|lia|]|eapply seqs_cons; [apply copy_to; [lia|lia|]|apply seqs_nil]].
  - intros j Hj. rewrite !C. change (Z.of_nat 3) with 3 in Hj. rewrite (words_lo 0 3 j Hj), (words_hi 0 3 j Hj). now split.
  - intros i Hi. rewrite C. cell_none.
Qed.

Lemma mpt_to : t = MPT -> 462 <= len f -> to 0 (wseqs [ n_relocate_words n 99; n_copy n 454; n_relocate_low_high n 4; n_copy n (len f) ]) (len f).
Proof.
  intros Ht HL. assert (C : forall i, cell_of t f i = either (words 0 99 i) (tables 454 458 4 i)) by (now rewrite Ht).
  eapply seqs_cons; [apply (words_to 0 99); [lia|lia|]|eapply seqs_cons; [apply copy_to; [lia|lia|]|eapply seqs_cons; [apply (low_high_to 454 4); [lia|lia|lia|]|eapply seqs_cons; [apply copy_to; [lia|lia|]|apply seqs_nil]]]].
  - intros j Hj. rewrite !C. change (Z.of_nat 99) with 99 in Hj. rewrite (words_lo 0 99 j Hj), (words_hi 0 99 j Hj). now split.
  - intros i Hi. rewrite C. cell_none.
  - intros j Hj. rewrite !C. rewrite !either_none by (apply words_out; lia). split; [now apply (tables_lo 454 458 4)|now apply (tables_hi 454 458 4)].
  - intros i Hi. rewrite C. cell_none.
Qed.

Lemma tmc_to : t = TMC -> 422 <= len f -> to 0 (wseqs [ n_relocate_words n 3; n_copy n 38; n_relocate_low_high n 64; n_relocate_low_high n 128; n_copy n (len f) ]) (len f).
Proof.
  intros Ht HL. assert (C : forall i, cell_of t f i = either (words 0 3 i) (either (tables 38 102 64 i) (tables 166 294 128 i))) by (now rewrite Ht).
  eapply seqs_cons; [apply (words_to 0 3); [lia|lia|]|eapply seqs_cons; [apply copy_to; [lia|lia|]|eapply seqs_cons; [apply (low_high_to 38 64); [lia|lia|lia|]|eapply seqs_cons; [apply (low_high_to 166 128); [lia|lia|lia|]|eapply seqs_cons; [apply copy_to; [lia|lia|]|apply seqs_nil]]]]].
  - intros j Hj. rewrite !C. change (Z.of_nat 3) with 3 in Hj. rewrite (words_lo 0 3 j Hj), (words_hi 0 3 j Hj). now split.
  - intros i Hi. rewrite C. cell_none.
  - intros j Hj. rewrite !C. split; (rewrite either_none by (apply words_out; lia)); apply either_some; [now apply (tables_lo 38 102 64)|now apply (tables_hi 38 102 64)].
  - intros j Hj. rewrite !C. split; (do 2 rewrite either_none by first [apply words_out; lia|apply tables_out; lia]); [now apply (tables_lo 166 294 128)|now apply (tables_hi 166 294 128)].
  - intros i Hi. rewrite C. cell_none.
Qed.

Lemma tm2_to : t = TM2 -> 902 <= len f -> to 0 (wseqs [ n_relocate_words n 3; n_copy n 134; n_relocate_bytes n 134 774 128 0; n_relocate_low_high n 256; n_relocate_bytes n 134 774 128 8; n_copy n (len f) ]) (len f).
Proof.
  intros Ht HL. assert (C : forall i, cell_of t f i = either (words 0 3 i) (either (tables 134 774 128 i) (tables 262 518 256 i))) by (now rewrite Ht).
  assert (T1 : forall j, 0 <= j < 128 -> cell_of t f (134 + j) = Some (134 + j, 774 + j) /\ cell_of t f (774 + j) = Some (134 + j, 774 + j)).
  { intros j Hj. rewrite !C. split; (rewrite either_none by (apply words_out; lia)); apply either_some; [now apply (tables_lo 134 774 128)|now apply (tables_hi 134 774 128)]. }
  eapply seqs_cons; [apply (words_to 0 3); [lia|lia|]|eapply seqs_cons; [apply copy_to; [lia|lia|]|eapply seqs_cons; [apply (bytes_to 134 774 128 0 134); [lia|lia|lia|lia|lia|exact T1]|
    eapply seqs_cons; [apply (low_high_to 262 256); [lia|lia|lia|]|eapply seqs_cons; [apply (bytes_to 134 774 128 8 774); [lia|lia|lia|lia|lia|exact T1]|eapply seqs_cons; [apply copy_to; [lia|lia|]|apply seqs_nil]]]]]].
  - intros j Hj. rewrite !C. change (Z.of_nat 3) with 3 in Hj. rewrite (words_lo 0 3 j Hj), (words_hi 0 3 j Hj). now split.
  - intros i Hi. rewrite C. cell_none.
  - intros j Hj. rewrite !C. split; (do 2 rewrite either_none by first [apply words_out; lia|apply tables_out; lia]); [now apply (tables_lo 262 518 256)|now apply (tables_hi 262 518 256)].
  - intros i Hi. rewrite C. cell_none.
Qed.

(* ---- RMT ---- *)
Section Rmt.
Hypothesis Ht : t = RMT.
Hypothesis HC : complete RMT f.
Let so := rmt_song f.
Let se := rmt_end f.
Let ch := rmt_channels f.
Let tb := rmt_tables f.
Let pt := rmt_patterns f.

Lemma rmt_facts : (ch = 4 \/ ch = 8) /\ 22 <= tb /\ tb mod 2 = 0 /\ 0 <= pt /\ tb + 2 * pt <= so /\ so < se <= len f.
Proof. destruct HC as (_ & _ & H1 & H2 & H3 & H4 & H5 & H6). now repeat split. Qed.

Lemma rmt_cell i : cell_of t f i = either (words 2 2 i) (either (words 14 ((tb - 14) / 2) i) (either (tables tb (tb + pt) pt i) (either (rmt_goto f i) (rmt_names f i)))).
Proof. now rewrite Ht. Qed.

Lemma rmt_cell_song i : so <= i < se -> cell_of t f i = rmt_goto f i.
Proof.
  intros Hi. destruct rmt_facts as (F1 & F2 & F3 & F4 & F5 & F6). rewrite rmt_cell. do 3 rewrite either_none by first [apply words_out; lia|apply tables_out; lia].
  rewrite names_out by (fold se; lia). now destruct (rmt_goto f i).
Qed.

(* the offset of a column of a line *)
Lemma goto_line j c : 0 <= j -> 0 <= c < ch -> so + j * ch + c < se ->
  rmt_goto f (so + j * ch + c) = if (at_ f (so + j * ch) =? 254) && ((c =? 2) || (c =? 3)) && (so + j * ch + 3 <? se) then Some (so + j * ch + 2, so + j * ch + 3) else None.
Proof.
  intros Hj Hc He. destruct rmt_facts as (F1 & _). unfold rmt_goto. fold so. fold se. fold ch. replace ((so <=? so + j * ch + c) && (so + j * ch + c <? se)) with true by lia.
  assert (M : (so + j * ch + c - so) mod ch = c).
  { replace (so + j * ch + c - so) with (c + j * ch) by lia. rewrite Z.mod_add by lia. apply Z.mod_small. lia. }
  rewrite M. replace (so + j * ch + c - c) with (so + j * ch) by lia. reflexivity.
Qed.

Lemma song_to : forall fuel j, 0 <= j -> so + j * ch <= se -> se - (so + j * ch) <= Z.of_nat fuel ->
  exists e, to (so + j * ch) (n_rmt_song fuel n (so + j * ch) se) e /\ e <= se /\ forall i, e <= i < se -> cell_of t f i = None.
Proof.
  destruct rmt_facts as (F1 & F2 & F3 & F4 & F5 & F6).
  assert (STOP : forall j, 0 <= j -> so + j * ch <= se -> se <= so + j * ch + 3 -> forall i, so + j * ch <= i < se -> cell_of t f i = None).
  { intros j Hj Hle Hs i Hi. rewrite rmt_cell_song by lia. replace i with (so + j * ch + (i - (so + j * ch))) by lia. rewrite goto_line by lia.
    replace (so + j * ch + 3 <? se) with false by lia. now rewrite Bool.andb_false_r. }
  induction fuel as [|fuel IH]; intros j Hj Hle Hfuel; cbn [n_rmt_song].
  - replace (so + j * ch + 3 <? se) with false by lia. exists (so + j * ch). split; [apply to_nil|]. split; [lia|]. apply STOP; lia.
  - destruct (so + j * ch + 3 <? se) eqn:E; [|exists (so + j * ch); split; [apply to_nil|]; split; [lia|]; apply STOP; lia].
    set (o := so + j * ch) in *.
    assert (CH : n_get_byte n 9 = Ok (at_ f 9)) by (apply src_byte; lia).
    assert (CB : n_get_byte n o = Ok (at_ f o)) by (apply src_byte; unfold o; lia).
    assert (CHE : at_ f 9 - 48 = ch) by reflexivity.
    set (nx := if se <? o + ch then se else o + ch).
    assert (NX : o + 3 < nx <= se \/ nx = se) by (unfold nx; destruct (se <? o + ch) eqn:Q; lia).
    assert (NX2 : o + 4 <= nx <= se) by (unfold nx; destruct (se <? o + ch) eqn:Q; lia).
    assert (NX3 : nx <= o + ch) by (unfold nx; destruct (se <? o + ch) eqn:Q; lia).
    (* cells of this line *)
    assert (LINE : forall c, 0 <= c < ch -> o + c < nx -> cell_of t f (o + c) = if (at_ f o =? 254) && ((c =? 2) || (c =? 3)) then Some (o + 2, o + 3) else None).
    { intros c Hc Hn. rewrite rmt_cell_song by (unfold o in *; lia). unfold o in *. rewrite goto_line by lia. rewrite E, Bool.andb_true_r. reflexivity. }
    assert (MID : exists a, to o (wif (at_ f o =? 254) (wseq (n_copy n (o + 2)) (n_relocate_words n 1))) a /\ o <= a <= nx /\ forall i, a <= i < nx -> cell_of t f i = None).
    { destruct (at_ f o =? 254) eqn:E254; cbn [wif].
      - exists (o + 4). split; [|split; [lia|]].
        + apply to_seq with (a := o + 2).
          * apply copy_to; [unfold o in *; lia|lia|]. intros i Hi. replace i with (o + (i - o)) by lia. rewrite LINE by lia. replace ((i - o =? 2) || (i - o =? 3)) with false by lia. reflexivity.
          * replace (o + 4) with (o + 2 + 2 * Z.of_nat 1) by lia. apply words_to; [unfold o in *; lia|lia|]. intros k Hk. replace k with 0 by lia. rewrite Z.mul_0_r, Z.add_0_r. replace (o + 2 + 1) with (o + 3) by lia.
            rewrite !LINE by lia. now split.
        + intros i Hi. replace i with (o + (i - o)) by lia. rewrite LINE by lia. replace ((i - o =? 2) || (i - o =? 3)) with false by lia. reflexivity.
      - exists o. split; [apply to_nil|]. split; [lia|]. intros i Hi. replace i with (o + (i - o)) by lia. rewrite LINE by lia. reflexivity. }
    destruct MID as (a & M1 & M2 & M3).
    assert (REST : exists e, to nx (n_rmt_song fuel n nx se) e /\ e <= se /\ forall i, e <= i < se -> cell_of t f i = None).
    { unfold nx. destruct (se <? o + ch) eqn:Q.
      - exists se. split; [|split; [lia|lia]]. destruct fuel; cbn [n_rmt_song]; replace (se + 3 <? se) with false by lia; apply to_nil.
      - replace (o + ch) with (so + (j + 1) * ch) by (unfold o; lia). apply IH; [lia|unfold o in *; lia|unfold o in *; lia]. }
    destruct REST as (e & R1 & R2 & R3). exists e. split; [|split; [exact R2|exact R3]].
    apply (bind_to _ (at_ f 9)); [exact CH|]. apply (bind_to _ (at_ f o)); [exact CB|]. cbv zeta. replace (o + at_ f 9 - 48) with (o + ch) by lia. fold nx.
    apply seqs_cons with (a := a); [exact M1|]. apply seqs_cons with (a := nx); [apply copy_to; [unfold o in *; lia|lia|exact M3]|]. apply seqs_cons with (a := e); [exact R1|apply seqs_nil].
Qed.

Lemma rmt_to last : last = file_word f 4 ->
  to 0 (wseqs [ write_word 65535; n_relocate_words n 2; n_copy n 14;
        wbind (n_get_word n 16) (fun patternLowAddress =>
        wseq (n_relocate_words n (Z.to_nat (Z.shiftr (patternLowAddress - file_word f 2 - 8) 1)))
        (wbind (n_get_word n 18) (fun patternHighAddress =>
        wseq (n_relocate_low_high n (patternHighAddress - patternLowAddress))
        (wbind (n_get_word n 20) (fun songAddress =>
        let songOffset := 6 + songAddress - file_word f 2 in
        wseq (n_copy n songOffset)
        (let songEnd := 7 + last - file_word f 2 in
         wseqs [ n_rmt_song (Z.to_nat (songEnd - songOffset)) n songOffset songEnd;
                 n_copy n songEnd;
                 wif (songEnd + 5 <=? len f) (n_relocate_words n 2);
                 n_copy n (len f) ])))))) ]) (len f).
Proof.
  intros ->. destruct rmt_facts as (F1 & F2 & F3 & F4 & F5 & F6). destruct HC as (B0 & B1 & _).
  pose proof rmt_cell as C.
  eapply seqs_cons with (a := 2).
  { split; [lia|]. change (Z.to_nat (2 - 0)) with 2%nat. cbn [seg]. eapply emits_at_eq; [apply at_emits, emits_word|].
    assert (G : forall i, 0 <= i < 2 -> g i = 255).
    { intros i Hi. rewrite g_none; [|rewrite C; do 4 rewrite either_none by first [apply words_out; lia|apply tables_out; lia|apply goto_out; fold so; lia]; apply names_out; fold se; lia|lia].
      rewrite <- Hf by lia. assert (i = 0 \/ i = 1) as [->| ->] by lia; assumption. }
    rewrite (G 0), (G (0 + 1)) by lia. reflexivity. }
  eapply seqs_cons with (a := 6).
  { change 6 with (2 + 2 * Z.of_nat 2). apply words_to; [lia|lia|]. intros j Hj. change (Z.of_nat 2) with 2 in Hj. rewrite !C. rewrite (words_lo 2 2 j Hj), (words_hi 2 2 j Hj). now split. }
  eapply seqs_cons with (a := 14).
  { apply copy_to; [lia|lia|]. intros i Hi. rewrite C. do 4 rewrite either_none by first [apply words_out; lia|apply tables_out; lia|apply goto_out; fold so; lia]. apply names_out; fold se; lia. }
  eapply seqs_cons with (a := len f); [|apply seqs_nil].
  apply (bind_to _ (file_word f 16)); [apply src_word; lia|].
  assert (K : Z.shiftr (file_word f 16 - file_word f 2 - 8) 1 = (tb - 14) / 2).
  { rewrite Z.shiftr_div_pow2 by lia. change (2 ^ 1) with 2. unfold tb, rmt_tables. f_equal. lia. }
  rewrite K. apply to_seq with (a := tb).
  { replace tb with (14 + 2 * Z.of_nat (Z.to_nat ((tb - 14) / 2))) at 2 by lia. apply words_to; [lia|lia|]. intros j Hj. rewrite !C.
    split; (rewrite either_none by (apply words_out; lia)); apply either_some; [apply words_lo; lia|apply words_hi; lia]. }
  apply (bind_to _ (file_word f 18)); [apply src_word; lia|]. change (file_word f 18 - file_word f 16) with pt.
  apply to_seq with (a := tb + 2 * pt).
  { apply low_high_to; [lia|lia|lia|]. intros j Hj. rewrite !C.
    split; (do 2 rewrite either_none by (apply words_out; lia)); apply either_some; [apply tables_lo; lia|apply tables_hi; lia]. }
  apply (bind_to _ (file_word f 20)); [apply src_word; lia|]. cbv zeta. change (6 + file_word f 20 - file_word f 2) with so. change (7 + file_word f 4 - file_word f 2) with se.
  apply to_seq with (a := so).
  { apply copy_to; [lia|lia|]. intros i Hi. rewrite C. do 4 rewrite either_none by first [apply words_out; lia|apply tables_out; lia|apply goto_out; fold so; lia]. apply names_out; fold se; lia. }
  destruct (song_to (Z.to_nat (se - so)) 0 ltac:(lia) ltac:(lia) ltac:(lia)) as (e & S1 & S2 & S3). rewrite Z.mul_0_l, Z.add_0_r in S1.
  apply seqs_cons with (a := e); [exact S1|]. assert (SO : so <= e) by apply S1.
  apply seqs_cons with (a := se); [apply copy_to; [lia|lia|exact S3]|].
  destruct (se + 5 <=? len f) eqn:E5; cbn [wif].
  - apply seqs_cons with (a := se + 4).
    { change (se + 4) with (se + 2 * Z.of_nat 2). apply words_to; [lia|lia|]. intros j Hj. change (Z.of_nat 2) with 2 in Hj. rewrite !C.
      split; (do 4 rewrite either_none by first [apply words_out; lia|apply tables_out; lia|apply goto_out; fold se; lia]); unfold rmt_names; fold se; rewrite E5; [apply words_lo; lia|apply words_hi; lia]. }
    apply seqs_cons with (a := len f); [|apply seqs_nil]. apply copy_to; [lia|lia|]. intros i Hi. rewrite C. do 4 rewrite either_none by first [apply words_out; lia|apply tables_out; lia|apply goto_out; fold se; lia]. apply names_out; fold se; lia.
  - apply seqs_cons with (a := se); [apply to_nil|]. apply seqs_cons with (a := len f); [|apply seqs_nil]. apply copy_to; [lia|lia|]. intros i Hi. rewrite C.
    do 4 rewrite either_none by first [apply words_out; lia|apply tables_out; lia|apply goto_out; fold se; lia]. unfold rmt_names. fold se. now rewrite E5.
Qed.
End Rmt.
End Write.

(* the whole module *)
Definition distance (inf : info) (f : list Z) : Z := if i_music inf <? 0 then 0 else i_music inf - file_word f 2.

Lemma n_write_to module off f inf t : 0 <= off -> off + len f <= len module -> (forall i, 0 <= i < len f -> at_ f i = at_ module (off + i)) -> bytes module ->
  native t -> complete t f -> file_word f 4 + distance inf f <= 65535 -> emits_to (new_byte t (distance inf f) f) 0 (n_write module off inf t (len f)) (len f).
Proof.
  intros Hoff Hlen Hf Hb HT HC HD. set (d := distance inf f) in *.
  assert (L6 : 6 <= len f).
  { repeat (destruct HT as [<-|HT]; [cbn [complete] in HC; try lia; unfold rmt_tables, rmt_song, rmt_end in HC; lia|]). destruct HT. }
  unfold n_write.
  assert (W2 : get_word module (off + 2) = Ok (file_word f 2)) by (apply (src_word module off f d t Hoff Hlen Hf 2); lia).
  apply (bind_to f d t _ (file_word f 2)); [exact W2|]. fold d. change (if i_music inf <? 0 then 0 else i_music inf - file_word f 2) with d.
  apply (bind_to f d t _ (file_word f 4)); [apply (src_word module off f d t Hoff Hlen Hf 4); lia|]. cbn [n_diff]. replace (65535 <? file_word f 4 + d) with false by lia.
  repeat (destruct HT as [<-|HT]; [cbn [complete] in HC; cbv zeta; first
    [ apply cmc_to; try assumption; cbn; tauto | apply dlt_to; try assumption; reflexivity | apply mpt_to; try assumption; reflexivity
    | apply tmc_to; try assumption; reflexivity | apply tm2_to; try assumption; reflexivity | apply rmt_to; try assumption; reflexivity ]|]). destruct HT.
Qed.

Lemma n_write_refused module off f inf t w : 0 <= off -> off + len f <= len module -> (forall i, 0 <= i < len f -> at_ f i = at_ module (off + i)) -> bytes module ->
  6 <= len f -> 65535 < file_word f 4 + distance inf f -> n_write module off inf t (len f) w = Ok (false, w).
Proof.
  intros Hoff Hlen Hf Hb L6 HD. set (d := distance inf f) in *. unfold n_write.
  assert (W2 : get_word module (off + 2) = Ok (file_word f 2)) by (apply (src_word module off f d t Hoff Hlen Hf 2); lia).
  unfold wbind at 1. rewrite W2. cbn [bind]. change (if i_music inf <? 0 then 0 else i_music inf - file_word f 2) with d.
  unfold wbind at 1. rewrite (src_word module off f d t Hoff Hlen Hf 4) by lia. cbn [bind n_diff]. now replace (65535 <? file_word f 4 + d) with true by lia.
Qed.
