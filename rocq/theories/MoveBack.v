(* A native module moved to another address has the same structure, and moving it back restores it. *)
From Verif Require Import Base BaseFacts InfoModel WindowSpec WriterModel WriterProofs SapSpec SaveProofs MoveSpec MoveProofs MoveWrite.

(* cells of a layout: every offset is in at most one, and they are inside the file *)
Definition cells (L : Z) (cf : Z -> option cell) : Prop :=
  forall i c, cf i = Some c -> 0 <= fst c < L /\ 0 <= snd c < L /\ fst c <> snd c /\ (i = fst c \/ i = snd c) /\ cf (fst c) = Some c /\ cf (snd c) = Some c.

Lemma words_some first count i c : words first count i = Some c -> exists j, 0 <= j < count /\ c = (first + 2 * j, first + 2 * j + 1) /\ (i = fst c \/ i = snd c).
Proof.
  unfold words. destruct ((first <=? i) && (i <? first + 2 * count)) eqn:E; [|discriminate]. cbv zeta. intros [= <-].
  exists ((i - first) / 2). split; [lia|]. split; [f_equal; lia|]. cbn [fst snd]. lia.
Qed.

Lemma words_cells L first count : 0 <= first -> first + 2 * count <= L -> cells L (words first count).
Proof.
  intros H1 H2 i c E. destruct (words_some _ _ _ _ E) as (j & Hj & -> & Hi). cbn [fst snd] in *. split; [lia|]. split; [lia|]. split; [lia|]. split; [exact Hi|].
  split; [apply words_lo; lia|apply words_hi; lia].
Qed.

Lemma tables_some lo hi count i c : tables lo hi count i = Some c -> exists j, 0 <= j < count /\ c = (lo + j, hi + j) /\ (i = fst c \/ i = snd c).
Proof.
  unfold tables. destruct ((lo <=? i) && (i <? lo + count)) eqn:E; [intros [= <-]; exists (i - lo); cbn [fst snd]; split; [lia|]; split; [f_equal; lia|lia]|].
  destruct ((hi <=? i) && (i <? hi + count)) eqn:E2; [|discriminate]. intros [= <-]. exists (i - hi). cbn [fst snd]. split; [lia|]. split; [f_equal; lia|lia].
Qed.

Lemma tables_cells L lo hi count : 0 <= lo -> lo + count <= hi -> hi + count <= L -> cells L (tables lo hi count).
Proof.
  intros H1 H2 H3 i c E. destruct (tables_some _ _ _ _ _ E) as (j & Hj & -> & Hi). cbn [fst snd] in *. split; [lia|]. split; [lia|]. split; [lia|]. split; [exact Hi|].
  split; [apply tables_lo; lia|apply tables_hi; lia].
Qed.

Lemma either_cells L a b : cells L a -> cells L b -> (forall i c, a i = Some c -> b i = None) -> cells L (fun i => either (a i) (b i)).
Proof.
  intros Ha Hb D i c E. destruct (a i) as [x|] eqn:A; cbn [either] in E.
  - assert (x = c) by congruence. subst x. destruct (Ha i c A) as (F1 & F2 & F3 & F4 & F5 & F6). split; [exact F1|]. split; [exact F2|]. split; [exact F3|]. split; [exact F4|]. rewrite F5, F6. now split.
  - destruct (Hb i c E) as (F1 & F2 & F3 & F4 & F5 & F6). split; [exact F1|]. split; [exact F2|]. split; [exact F3|]. split; [exact F4|].
    destruct (a (fst c)) as [x|] eqn:A1; [rewrite (D _ _ A1) in F5; discriminate|]. destruct (a (snd c)) as [x|] eqn:A2; [rewrite (D _ _ A2) in F6; discriminate|]. now split.
Qed.

Lemma words_dom first count i c : words first count i = Some c -> first <= i < first + 2 * count.
Proof. intros E. destruct (words_some _ _ _ _ E) as (j & Hj & -> & Hi). cbn [fst snd] in Hi. lia. Qed.

Lemma tables_dom lo hi count i c : tables lo hi count i = Some c -> lo <= i < lo + count \/ hi <= i < hi + count.
Proof. intros E. destruct (tables_some _ _ _ _ _ E) as (j & Hj & -> & Hi). cbn [fst snd] in Hi. lia. Qed.

Lemma goto_dom f i c : rmt_goto f i = Some c -> rmt_song f <= i < rmt_end f.
Proof. unfold rmt_goto. destruct ((rmt_song f <=? i) && (i <? rmt_end f)) eqn:E; [lia|discriminate]. Qed.

Lemma names_dom f i c : rmt_names f i = Some c -> rmt_end f <= i < rmt_end f + 4 /\ rmt_end f + 5 <= len f.
Proof. unfold rmt_names. destruct (rmt_end f + 5 <=? len f) eqn:E; [|discriminate]. intros H. apply words_dom in H. lia. Qed.

Lemma goto_column f i : 4 <= rmt_channels f -> let line := i - (i - rmt_song f) mod rmt_channels f in
  forall k, 0 <= k < rmt_channels f -> (line + k - rmt_song f) mod rmt_channels f = k.
Proof.
  intros H line k Hk. pose proof (Z.div_mod (i - rmt_song f) (rmt_channels f) ltac:(lia)) as D.
  replace (line + k - rmt_song f) with (k + (i - rmt_song f) / rmt_channels f * rmt_channels f) by (unfold line; lia). rewrite Z.mod_add by lia. apply Z.mod_small. lia.
Qed.

Lemma goto_cells L f : 0 <= rmt_song f -> rmt_end f <= L -> 4 <= rmt_channels f -> cells L (rmt_goto f).
Proof.
  intros H1 H2 H3 i c E. pose proof (goto_dom _ _ _ E) as D. pose proof (goto_column f i H3) as C. cbv zeta in C. unfold rmt_goto in E.
  replace ((rmt_song f <=? i) && (i <? rmt_end f)) with true in E by lia. cbv zeta in E.
  set (col := (i - rmt_song f) mod rmt_channels f) in *. pose proof (Z.mod_pos_bound (i - rmt_song f) (rmt_channels f) ltac:(lia)) as B. fold col in B.
  destruct ((at_ f (i - col) =? 254) && ((col =? 2) || (col =? 3)) && (i - col + 3 <? rmt_end f)) eqn:E2; [|discriminate]. injection E as <-. cbn [fst snd].
  assert (S : rmt_song f <= i - col).
  { pose proof (Z.div_mod (i - rmt_song f) (rmt_channels f) ltac:(lia)) as DM. fold col in DM. pose proof (Z.div_pos (i - rmt_song f) (rmt_channels f) ltac:(lia) ltac:(lia)). nia. }
  assert (G : forall k, k = 2 \/ k = 3 -> rmt_goto f (i - col + k) = Some (i - col + 2, i - col + 3)).
  { intros k Hk. unfold rmt_goto. replace ((rmt_song f <=? i - col + k) && (i - col + k <? rmt_end f)) with true by lia. cbv zeta. rewrite C by lia.
    replace (i - col + k - k) with (i - col) by lia. now replace ((at_ f (i - col) =? 254) && ((k =? 2) || (k =? 3)) && (i - col + 3 <? rmt_end f)) with true by lia. }
  split; [lia|]. split; [lia|]. split; [lia|]. split; [lia|]. split; apply G; lia.
Qed.

Ltac doms := repeat match goal with
  | H : words _ _ _ = Some _ |- _ => apply words_dom in H
  | H : tables _ _ _ _ = Some _ |- _ => apply tables_dom in H
  | H : rmt_goto _ _ = Some _ |- _ => apply goto_dom in H
  | H : rmt_names _ _ = Some _ |- _ => apply names_dom in H
  end.

Lemma none_if {A} (o : option A) : (forall x, o = Some x -> False) -> o = None.
Proof. destruct o; [|reflexivity]. intros H. destruct (H a eq_refl). Qed.

Lemma either_split {A : Prop} (a b : option cell) x : either a b = Some x -> (a = Some x -> A) -> (b = Some x -> A) -> A.
Proof. destruct a; cbn [either]; auto. Qed.

Ltac disjoint := intros i c Hc; apply none_if; intros x Hx; repeat (match goal with H : either _ _ = Some _ |- _ => apply (either_split _ _ _ H); clear H; intros H end); doms; lia.

Lemma type_cells t f : native t -> complete t f -> cells (len f) (cell_of t f).
Proof.
  intros HT HC. repeat (destruct HT as [<-|HT]; [|]); try destruct HT; cbn [complete] in HC; cbn [cell_of].
  all: try (repeat (apply either_cells; [first [apply words_cells; lia|apply tables_cells; lia]| |disjoint]); first [apply words_cells; lia|apply tables_cells; lia]).
  destruct HC as (_ & _ & H1 & H2 & H3 & H4 & H5 & H6).
  apply either_cells; [apply words_cells; lia| |disjoint]. apply either_cells; [apply words_cells; lia| |disjoint]. apply either_cells; [apply tables_cells; lia| |disjoint].
  apply either_cells; [apply goto_cells; lia| |disjoint]. intros i c E. pose proof (names_dom _ _ _ E) as D. unfold rmt_names in *. replace (rmt_end f + 5 <=? len f) with true in * by lia.
  apply (words_cells (len f) (rmt_end f) 2); [lia|lia|exact E].
Qed.

Lemma byte_pair a b : 0 <= a < 256 -> 0 <= b < 256 -> (a + 256 * b) mod 256 = a /\ (a + 256 * b) / 256 mod 256 = b.
Proof. lia. Qed.

Lemma address_range f c : bytes f -> 0 <= address f c < 65536.
Proof. intros Hb. unfold address. pose proof (at_byte' f (fst c) Hb). pose proof (at_byte' f (snd c) Hb). unfold byte in *. lia. Qed.

(* the bytes of an address are the original bytes *)
Lemma cell_bytes f i (c : cell) : bytes f -> i = fst c \/ i = snd c -> (if i =? fst c then address f c mod 256 else address f c / 256 mod 256) = at_ f i.
Proof.
  intros Hb Hi. pose proof (at_byte' f (fst c) Hb) as B1. pose proof (at_byte' f (snd c) Hb) as B2. unfold byte in *. destruct (byte_pair _ _ B1 B2) as [P1 P2].
  unfold address. destruct (Z.eqb_spec i (fst c)) as [->|N]; [exact P1|]. destruct Hi as [Hi|Hi]; [now elim N|]. now rewrite Hi.
Qed.

Lemma new_byte_same t f i : bytes f -> native t -> complete t f -> new_byte t 0 f i = at_ f i.
Proof.
  intros Hb HT HC. unfold new_byte. destruct (cell_of t f i) as [c|] eqn:E; [|reflexivity]. destruct (type_cells t f HT HC i c E) as (_ & _ & _ & Hi & _).
  cbv zeta. replace (moved 0 (address f c)) with (address f c) by (unfold moved; destruct ((address f c =? 0) || (address f c =? 65535)); lia). now apply cell_bytes.
Qed.

Lemma is_moved_same t f g : bytes f -> native t -> complete t f -> is_moved t 0 f g -> g = f.
Proof. intros Hb HT HC [L M]. apply list_eq_at; [exact L|]. intros i Hi. rewrite M by lia. now apply new_byte_same. Qed.

(* ------------------------------------------------------------------ *)
Section Moved.
Variables (t : module_type) (d : Z) (f g : list Z).
Hypothesis HT : native t.
Hypothesis HC : complete t f.
Hypothesis Hf : bytes f.
Hypothesis HM : is_moved t d f g.
Hypothesis HV : movable t d f.

Lemma moved_range i c : 0 <= i < len f -> cell_of t f i = Some c -> 0 <= moved d (address f c) < 65536.
Proof.
  intros Hi E. destruct HV as (_ & _ & V). pose proof (address_range f c Hf). specialize (V i c Hi E). unfold moved.
  destruct ((address f c =? 0) || (address f c =? 65535)) eqn:Q; lia.
Qed.

(* the addresses of the moved file *)
Lemma moved_address i c : 0 <= i < len f -> cell_of t f i = Some c -> address g c = moved d (address f c).
Proof.
  intros Hi E. destruct (type_cells t f HT HC i c E) as (F1 & F2 & F3 & F4 & F5 & F6). pose proof (moved_range i c Hi E) as R. destruct HM as [L M].
  unfold address at 1. rewrite !M by lia. unfold new_byte. rewrite F5, F6. cbv zeta. rewrite Z.eqb_refl. replace (snd c =? fst c) with false by lia. lia.
Qed.

Lemma moved_other i : 0 <= i < len f -> cell_of t f i = None -> at_ g i = at_ f i.
Proof. intros Hi E. destruct HM as [_ M]. rewrite M by lia. unfold new_byte. now rewrite E. Qed.

Lemma moved_word i : 0 <= i < len f -> cell_of t f i = Some (i, i + 1) -> 0 < file_word f i < 65535 -> file_word g i = file_word f i + d.
Proof.
  intros Hi E H. pose proof (moved_address i _ Hi E) as A. unfold address in A. cbn [fst snd] in A. unfold file_word in *. rewrite A. unfold moved.
  now replace ((at_ f i + 256 * at_ f (i + 1) =? 0) || (at_ f i + 256 * at_ f (i + 1) =? 65535)) with false by lia.
Qed.

Lemma len6 : 6 <= len f.
Proof.
  clear HM HV. repeat (destruct HT as [<-|HT']; [cbn [complete] in HC; try lia; unfold rmt_tables, rmt_song, rmt_end in HC; lia|clear HT; rename HT' into HT]). destruct HT.
Qed.

Lemma cell_2 : cell_of t f 2 = Some (2, 3).
Proof. clear HC HM HV. repeat (destruct HT as [<-|HT']; [reflexivity|clear HT; rename HT' into HT]). destruct HT. Qed.
Lemma cell_4 : cell_of t f 4 = Some (4, 5).
Proof. clear HC HM HV. repeat (destruct HT as [<-|HT']; [reflexivity|clear HT; rename HT' into HT]). destruct HT. Qed.

Lemma word_pos i : 0 <= file_word f i.
Proof. unfold file_word. pose proof (at_byte' f i Hf). pose proof (at_byte' f (i + 1) Hf). unfold byte in *. lia. Qed.

Lemma moved_start : file_word g 2 = file_word f 2 + d.
Proof. pose proof len6. pose proof (word_pos 2). destruct HV as ((V1 & V3) & V2 & _). apply moved_word; [lia|exact cell_2|lia]. Qed.

Lemma moved_last : file_word g 4 = file_word f 4 + d.
Proof. pose proof len6. pose proof (word_pos 2). destruct HV as ((V1 & V3) & V2 & _). apply moved_word; [lia|exact cell_4|lia]. Qed.

Lemma moved_rmt : t = RMT -> rmt_tables g = rmt_tables f /\ rmt_patterns g = rmt_patterns f /\ rmt_song g = rmt_song f /\ rmt_end g = rmt_end f /\ rmt_channels g = rmt_channels f.
Proof.
  intros E. pose proof moved_start as S2. pose proof moved_last as S4. assert (HC' := HC). rewrite E in HC'. destruct HC' as (_ & _ & H1 & H2 & H3 & H4 & H5 & H6). destruct HV as (V1 & V2 & _).
  pose proof (word_pos 2). unfold rmt_tables, rmt_patterns, rmt_song, rmt_end in *.
  assert (C : forall j, 0 <= j < 4 -> cell_of t f (14 + 2 * j) = Some (14 + 2 * j, 14 + 2 * j + 1)).
  { intros j Hj. rewrite E. cbn [cell_of]. rewrite either_none by (apply words_out; lia). apply either_some. apply words_lo. unfold rmt_tables. lia. }
  rewrite S2, S4. rewrite (moved_word 16), (moved_word 18), (moved_word 20); try lia; [|apply (C 3); lia|apply (C 2); lia|apply (C 1); lia].
  unfold rmt_channels. rewrite (moved_other 9); [lia|lia|]. rewrite E. cbn [cell_of].
  do 4 rewrite either_none by first [apply words_out; lia|apply tables_out; unfold rmt_tables; lia|apply goto_out; unfold rmt_song; lia]. apply names_out. unfold rmt_end. lia.
Qed.

Lemma moved_complete : complete t g.
Proof.
  destruct HM as [L _]. destruct (module_type_eqb t RMT) eqn:ET.
  - assert (E : t = RMT) by (destruct t; (reflexivity || discriminate)). destruct (moved_rmt E) as (R1 & R2 & R3 & R4 & R5). assert (HC' := HC). rewrite E in HC' |- *. cbn [complete]. rewrite L, R1, R2, R3, R4, R5.
    destruct HC' as (B0 & B1 & H1 & H2 & H3 & H4 & H5 & H6). 
    assert (N : forall i, 0 <= i < 2 -> cell_of t f i = None).
    { intros i Hi. rewrite E. cbn [cell_of]. do 4 rewrite either_none by first [apply words_out; lia|apply tables_out; lia|apply goto_out; lia]. apply names_out. lia. }
    rewrite (moved_other 0), (moved_other 1) by (try apply N; lia). repeat split; assumption || lia.
  - destruct t; try discriminate; cbn [complete] in *; lia.
Qed.

Lemma goto_column_0 i : 4 <= rmt_channels f -> rmt_song f <= i < rmt_end f -> rmt_goto f (i - (i - rmt_song f) mod rmt_channels f) = None.
Proof.
  intros H Hi. pose proof (goto_column f i H 0 ltac:(lia)) as C. cbv zeta in C. rewrite Z.add_0_r in C. unfold rmt_goto.
  destruct (_ && _); [|reflexivity]. cbv zeta. rewrite C. cbn [Z.eqb orb]. rewrite Bool.andb_false_r. reflexivity.
Qed.

Lemma moved_cells i : 0 <= i < len f -> cell_of t g i = cell_of t f i.
Proof.
  intros Hi. destruct (module_type_eqb t RMT) eqn:ET; [|destruct t; (reflexivity || discriminate)].
  assert (E : t = RMT) by (destruct t; (reflexivity || discriminate)). destruct (moved_rmt E) as (R1 & R2 & R3 & R4 & R5). destruct HM as [L _].
  assert (HC' := HC). rewrite E in HC'. destruct HC' as (B0 & B1 & H1 & H2 & H3 & H4 & H5 & H6). rewrite E. cbn [cell_of]. rewrite R1, R2.
  assert (N : rmt_names g i = rmt_names f i) by (unfold rmt_names; now rewrite R4, L). rewrite N.
  assert (G : rmt_goto g i = rmt_goto f i); [|now rewrite G].
  unfold rmt_goto. rewrite R3, R4, R5. destruct ((rmt_song f <=? i) && (i <? rmt_end f)) eqn:Q; [|reflexivity]. cbv zeta.
  set (line := i - (i - rmt_song f) mod rmt_channels f). 
  assert (LR : rmt_song f <= line <= i).
  { unfold line. pose proof (Z.mod_pos_bound (i - rmt_song f) (rmt_channels f) ltac:(lia)). pose proof (Z.div_mod (i - rmt_song f) (rmt_channels f) ltac:(lia)) as DM.
    pose proof (Z.div_pos (i - rmt_song f) (rmt_channels f) ltac:(lia) ltac:(lia)). nia. }
  rewrite (moved_other line); [reflexivity|lia|]. rewrite E. cbn [cell_of]. do 3 rewrite either_none by first [apply words_out; lia|apply tables_out; lia].
  unfold line at 1. rewrite goto_column_0 by lia. cbn [either]. apply names_out. lia.
Qed.

Lemma moved_twice a : a = 0 \/ a = 65535 \/ 0 < a + d < 65535 -> moved (- d) (moved d a) = a.
Proof.
  intros H. unfold moved. destruct ((a =? 0) || (a =? 65535)) eqn:Q; [now rewrite Q|]. replace ((a + d =? 0) || (a + d =? 65535)) with false by lia. lia.
Qed.

Lemma moved_back h : is_moved t (- d) g h -> h = f.
Proof.
  intros [L M]. assert (HL : len g = len f) by apply HM. apply list_eq_at; [lia|]. intros i Hi. rewrite M by lia. unfold new_byte. rewrite moved_cells by lia.
  destruct (cell_of t f i) as [c|] eqn:E; [|now apply moved_other; [lia|]]. cbv zeta. rewrite (moved_address i c) by (try exact E; lia).
  rewrite moved_twice by (apply HV with (i := i); [lia|exact E]). apply cell_bytes; [exact Hf|]. now destruct (type_cells t f HT HC i c E) as (_ & _ & _ & Q & _).
Qed.

Lemma moved_bytes : bytes g.
Proof.
  apply Forall_forall. intros x Hx. destruct (In_nth _ _ 0 Hx) as (k & Hk & <-). change (nth k g 0) with (nth k g 0). replace (nth k g 0) with (at_ g (Z.of_nat k)) by (unfold at_; now rewrite Nat2Z.id).
  assert (Hi : 0 <= Z.of_nat k < len g) by (unfold len; lia). revert Hi. generalize (Z.of_nat k) as i. intros i Hi. assert (HL : len g = len f) by apply HM. destruct HM as [_ M]. rewrite M by lia. unfold new_byte. pose proof (at_byte' f i Hf) as B.
  destruct (cell_of t f i); [|exact B]. cbv zeta. unfold byte. destruct (_ =? _); lia.
Qed.
End Moved.
