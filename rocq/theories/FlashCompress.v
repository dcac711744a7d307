(* The items of FlashPack.Compress rebuild the memory image. *)
From Verif Require Import Base BaseFacts FlashPackModel FlashSpec FlashEncode.

(* the only thing that may go wrong is the overflow of compressed[] *)
Definition wpx {A} (Over : Prop) (x : outcome A) (Q : A -> Prop) : Prop :=
  match x with Ok a => Q a | UB UbWrite => Over | _ => False end.

Lemma wpx_bind {A B} Over (x : outcome A) (f : A -> outcome B) Q : wpx Over x (fun a => wpx Over (f a) Q) -> wpx Over (bind x f) Q.
Proof. destruct x as [a| |[]|]; cbn [wpx bind]; auto; contradiction. Qed.

Lemma wpx_mono {A} Over (x : outcome A) (P Q : A -> Prop) : wpx Over x P -> (forall a, P a -> Q a) -> wpx Over x Q.
Proof. destruct x as [a| |[]|]; cbn [wpx]; auto. Qed.

(* ------------------------------------------------------------------ *)
(* sizes, in 1/64 of a byte: each item is charged for 1/64 of the nine flag bytes *)
Definition sz (I : list fp_item) : Z := fold_right (fun it s => 64 * len (item_bytes it) + 9 + s) 0 I.

Lemma sz_app I J : sz (I ++ J) = sz I + sz J.
Proof. induction I as [|it I IH]; cbn [app sz fold_right]; [reflexivity|]. fold (sz (I ++ J)). fold (sz I). lia. Qed.

Lemma item_bytes_size it : 1 <= len (item_bytes it) <= 3.
Proof. destruct it as [[] v]; cbn; lia. Qed.

Definition plain (I : list fp_item) : Z := fold_right (fun it s => len (item_bytes it) + s) 0 I.

Lemma sz_plain I : sz I = 64 * plain I + 9 * len I.
Proof.
  induction I as [|it I IH]; cbn [sz plain fold_right]; [reflexivity|]. fold (sz I). fold (plain I). rewrite len_cons. lia.
Qed.

Lemma put_items_size items rest : forall i, 0 <= i -> len (put_items_loop items rest i) <= plain rest + (i + len rest + 7) / 8 - (i + 7) / 8.
Proof.
  induction rest as [|it r IH]; intros i Hi; cbn [put_items_loop plain fold_right].
  - change (len (@nil Z)) with 0. change (len (@nil fp_item)) with 0. lia.
  - fold (plain r). rewrite !len_app, len_cons, land_7. specialize (IH (i + 1) ltac:(lia)).
    pose proof (item_bytes_size it). pose proof (len_nonneg r).
    destruct (i mod 8 =? 0) eqn:E; cbn [andb].
    + destruct (negb _); [change (len [u8 (inner_flags items i)]) with 1|change (len (@nil Z)) with 0]; lia.
    + change (len (@nil Z)) with 0. lia.
Qed.

Lemma chunk_size items : len items <= 64 -> len (chunk_bytes items) <= 9 + plain items.
Proof.
  intros H. unfold chunk_bytes. rewrite len_cons. pose proof (put_items_size items items 0 ltac:(lia)) as P. lia.
Qed.

(* ------------------------------------------------------------------ *)
(* what the state of the compressor has emitted                        *)
Definition whole (c : list fp_item) : Prop := length c = 64%nat /\ Forall item_ok c /\ existsb ends c = false.

Definition emitted (s : fp) (I : list fp_item) : Prop :=
  exists chunks, Forall whole chunks /\ fp_out s = flat_map chunk_bytes chunks /\ len (fp_items s) <= 64 /\
    I = concat chunks ++ fp_items s /\ Forall item_ok (fp_items s) /\ existsb ends (fp_items s) = false.

Lemma chunks_size chunks : Forall whole chunks -> 64 * len (flat_map chunk_bytes chunks) <= sz (concat chunks).
Proof.
  induction 1 as [|c chunks (L & _) _ IH]; cbn [flat_map concat]; [cbn; lia|]. rewrite len_app, sz_app.
  assert (LC : len c = 64) by (unfold len; lia). pose proof (chunk_size c ltac:(lia)). pose proof (sz_plain c). lia.
Qed.

Lemma put_items_eq s : put_items s = if 65536 <? len (fp_out s ++ chunk_bytes (fp_items s)) then UB UbWrite else Ok (mkFp (fp_out s ++ chunk_bytes (fp_items s)) (fp_items s)).
Proof. reflexivity. Qed.

Lemma put_item_emits (Over : Prop) s I t v total : emitted s I -> sz I <= total -> (65536 * 64 < total + 576 -> Over) ->
  item_ok (t, v) -> ends (t, v) = false -> wpx Over (put_item s t v) (fun s' => emitted s' (I ++ [(t, v)])).
Proof.
  intros (chunks & HC & Ho & Hl & -> & Hi & He) Hs HO Ok E. unfold put_item.
  destruct (64 <=? len (fp_items s)) eqn:E64.
  - assert (L64 : length (fp_items s) = 64%nat) by (unfold len in *; lia).
    rewrite put_items_eq. rewrite Ho.
    assert (W : Forall whole (chunks ++ [fp_items s])) by (apply Forall_app; split; [exact HC|constructor; [now repeat split|constructor]]).
    assert (F : flat_map chunk_bytes chunks ++ chunk_bytes (fp_items s) = flat_map chunk_bytes (chunks ++ [fp_items s])) by (rewrite flat_map_app; cbn [flat_map]; now rewrite app_nil_r).
    assert (C : concat (chunks ++ [fp_items s]) = concat chunks ++ fp_items s) by (rewrite concat_app; cbn [concat]; now rewrite app_nil_r).
    rewrite F. pose proof (chunks_size _ W) as S. rewrite C in S.
    destruct (65536 <? len (flat_map chunk_bytes (chunks ++ [fp_items s]))) eqn:EO; cbn [bind wpx]; [apply HO; lia|].
    exists (chunks ++ [fp_items s]). cbn [fp_out fp_items]. split; [exact W|]. split; [reflexivity|]. split; [cbn; lia|]. split; [now rewrite C|].
    split; [repeat constructor; exact Ok|]. cbn [app existsb]. now rewrite E.
  - cbn [bind wpx]. exists chunks. cbn [fp_out fp_items]. split; [exact HC|]. split; [exact Ho|]. split; [rewrite len_app; change (len [(t, v)]) with 1; lia|].
    split; [now rewrite app_assoc|]. split; [apply Forall_app; split; [exact Hi|repeat constructor; exact Ok]|]. rewrite existsb_app, He. cbn [existsb]. now rewrite E.
Qed.

(* ------------------------------------------------------------------ *)
(* the addresses an item reads and writes, and what items may take, in 1/64 of a byte: a command may need a byte of flags *)
Fixpoint copy_addrs (n : nat) (st : unpacker) : list Z :=
  match n with
  | O => []
  | S n =>
    let from := (u_addr st - u_dist st) mod 65536 in
    from :: u_addr st :: copy_addrs n (put_byte st (u_mem st from))
  end.
Definition item_addrs (st : unpacker) (it : fp_item) : list Z :=
  let '(t, v) := it in
  match t with
  | LITERAL => [u_addr st]
  | COPY_TWO => copy_addrs 2 (mkUnpacker (u_mem st) (u_addr st) v)
  | COPY_THREE => copy_addrs 3 (mkUnpacker (u_mem st) (u_addr st) v)
  | COPY_MANY => copy_addrs (Z.to_nat v) st
  | SET_ADDRESS | END_OF_STREAM => []
  end.
Definition wt (it : fp_item) : Z := 64 * (len (item_bytes it) + (if nonliteral it then 1 else 0)) + 1.
Definition wts (I : list fp_item) : Z := fold_right (fun it s => wt it + s) 0 I.
Lemma wts_app I J : wts (I ++ J) = wts I + wts J.
Proof. induction I as [|it I IH]; cbn [app wts fold_right]; [reflexivity|]. fold (wts (I ++ J)). fold (wts I). lia. Qed.
Lemma snoc_cases {T} (l : list T) : l = [] \/ exists l' x, l = l' ++ [x].
Proof. destruct l as [|x l] using rev_ind; [now left|right; eauto]. Qed.

Lemma sz_1 it : sz [it] = 64 * len (item_bytes it) + 9.
Proof. cbn [sz fold_right]. lia. Qed.

Section Image.
Variables (m : image) (st0 : unpacker) (base : memory) (total : Z) (Over : Prop).
Hypothesis Hm : proper_image m.
Hypothesis HOver : 65536 * 64 < total + 576 -> Over.
(* for the bytes left to read when an address is used (see UnpackTouch.v): where addresses may be, which matter, runs up to an address *)
Variables (lo : Z) (okay zone : Z -> Prop) (Rk : Z -> Z).
Hypothesis Hlo : 0 <= lo.
Hypothesis Hokay : forall x, lo <= x < 65536 -> 0 <= m x -> okay x.
Hypothesis Rmono : forall x y, x <= y -> Rk x <= Rk y.
Hypothesis Rnew : forall c a, c < a -> lo <= a < 65536 -> 0 <= m a -> a = lo \/ m (a - 1) < 0 -> Rk c + 1 <= Rk a.

Definition light (I : list fp_item) (c : Z) : Prop :=
  forall I1 it I2, I = I1 ++ it :: I2 -> forall x, In x (item_addrs (run_items I1 st0) it) ->
  okay x /\ (zone x -> wts I2 <= 65 * (c - 1 - x) + 192 * (Rk c - Rk x)).

Lemma light_snoc I c it c' : light I c -> c <= c' -> wt it <= 65 * (c' - c) + 192 * (Rk c' - Rk c) ->
  (forall x, In x (item_addrs (run_items I st0) it) -> okay x /\ x < c') -> light (I ++ [it]) c'.
Proof.
  intros L Hc Hw Hx I1 it' I2 E x Ix. destruct (snoc_cases I2) as [->|(J & z & ->)].
  - apply app_inj_tail in E as [<- <-]. destruct (Hx x Ix) as [O Lx]. split; [exact O|]. intros _. cbn [wts fold_right].
    pose proof (Rmono x c' ltac:(lia)). lia.
  - rewrite app_comm_cons, app_assoc in E. apply app_inj_tail in E as [-> <-]. destruct (L I1 it' J eq_refl x Ix) as [O B]. split; [exact O|].
    intros Zx. specialize (B Zx). rewrite wts_app. cbn [wts fold_right]. lia.
Qed.

Definition good (P : Z -> Prop) (mem : memory) : Prop :=
  forall a, (0 <= a < 65536 /\ 0 <= m a -> P a -> mem a = m a) /\ (~ (0 <= a < 65536 /\ 0 <= m a) -> mem a = base a).

Definition upto (D : Z -> Prop) (start a : Z) : Z -> Prop := fun x => D x \/ start <= x < a.

(* the items emitted so far unpack everything in P and leave the decompressor at address a with distance d *)
Definition reachedc (c : Z) (s : fp) (a d : Z) (P : Z -> Prop) (S : Z) : Prop :=
  exists I, emitted s I /\ sz I <= S /\ u_addr (run_items I st0) = a mod 65536 /\
    (d <> -1 -> u_dist (run_items I st0) = d) /\ light I c /\ good P (u_mem (run_items I st0)).
Definition reached (s : fp) (a d : Z) (P : Z -> Prop) (S : Z) : Prop := reachedc a s a d P S.

Lemma good_mono (P P' : Z -> Prop) mem : (forall x, P' x -> P x) -> good P mem -> good P' mem.
Proof. intros H G a. destruct (G a) as [G1 G2]. split; [|exact G2]. intros A B. apply G1; [exact A|now apply H]. Qed.

Lemma reached_mono s a d (P P' : Z -> Prop) S S' : (forall x, P' x -> P x) -> S <= S' -> reached s a d P S -> reached s a d P' S'.
Proof.
  intros HP HS (I & E & Z1 & A & D & L & G). exists I. split; [exact E|]. split; [lia|]. split; [exact A|]. split; [exact D|]. split; [exact L|]. eapply good_mono; eassumption.
Qed.

Lemma good_store D start a mem : start <= a -> 0 <= a < 65536 -> 0 <= m a -> good (upto D start a) mem -> good (upto D start (a + 1)) (store_at mem a (m a)).
Proof.
  intros Hs Ha Hv G x. unfold store_at. destruct (Z.eqb_spec x a) as [->|N].
  - split; [reflexivity|]. intros F. exfalso. apply F. now split.
  - destruct (G x) as [G1 G2]. split; [|exact G2]. intros A [B|B]; apply G1; try exact A; [now left|right; lia].
Qed.

Lemma run_snoc I it : run_items (I ++ [it]) st0 = run_item (run_items I st0) it.
Proof. unfold run_items. rewrite fold_left_app. reflexivity. Qed.

Lemma put_literal s a d D start S : reached s a d (upto D start a) S -> S <= total -> lo <= start <= a -> 0 <= a < 65536 -> 0 <= m a ->
  wpx Over (put_item s LITERAL (m a)) (fun s' => reached s' (a + 1) d (upto D start (a + 1)) (S + 73)).
Proof.
  intros (I & E & Z1 & A & Dd & L & G) HS Hst Ha Hv. pose proof (Hm a Ha) as Hb.
  eapply wpx_mono; [apply (put_item_emits Over s I LITERAL (m a) total E ltac:(lia) HOver); [unfold item_ok; cbn [fst snd]; lia|reflexivity]|].
  intros s' E'. exists (I ++ [(LITERAL, m a)]). split; [exact E'|]. split; [rewrite sz_app, sz_1; cbn [item_bytes len length]; change (len [u8 (m a)]) with 1; lia|].
  rewrite run_snoc. cbn [run_item]. set (st := run_items I st0) in *. cbn [put_byte u_addr u_dist u_mem]. rewrite A.
  split; [rewrite Zplus_mod_idemp_l; reflexivity|]. split; [exact Dd|]. split; [|rewrite Z.mod_small by lia; apply good_store; [lia|exact Ha|exact Hv|exact G]].
  apply (light_snoc I a); [exact L|lia| |].
  - pose proof (Rmono a (a + 1) ltac:(lia)). change (wt (LITERAL, m a)) with 65. lia.
  - fold st. cbn [item_addrs In]. rewrite A, Z.mod_small by lia. intros x [<-|[]]. split; [apply Hokay; lia|lia].
Qed.

Definition matches (start a n d : Z) : Prop :=
  1 <= d <= 127 /\ a + n <= 65536 /\ start <= a - d /\ forall k, a <= k < a + n -> 0 <= m k /\ m k = m (k - d).

Lemma copy_good D start d n : forall a st, u_addr st = a mod 65536 -> u_dist st = d -> good (upto D start a) (u_mem st) ->
  0 <= start <= a -> matches start a (Z.of_nat n) d ->
  u_addr (copy n st) = (a + Z.of_nat n) mod 65536 /\ u_dist (copy n st) = d /\ good (upto D start (a + Z.of_nat n)) (u_mem (copy n st)).
Proof.
  induction n as [|n IH]; intros a st A Dd G Ha M; cbn [copy].
  - rewrite Z.add_0_r. now repeat split; try apply G.
  - destruct M as (M1 & M2 & M3 & M4). destruct (M4 a ltac:(lia)) as [V E].
    assert (Asm : a mod 65536 = a) by (apply Z.mod_small; lia).
    assert (R : u_mem st ((u_addr st - u_dist st) mod 65536) = m a).
    { rewrite A, Dd, Asm. rewrite Z.mod_small by lia. destruct (G (a - d)) as [G1 _]. rewrite E. apply G1; [split; lia|right; lia]. }
    rewrite R. replace (a + Z.of_nat (S n)) with ((a + 1) + Z.of_nat n) by lia. apply IH.
    + cbn [put_byte u_addr]. rewrite A, Zplus_mod_idemp_l. reflexivity.
    + exact Dd.
    + cbn [put_byte u_mem]. rewrite A, Asm. apply good_store; [lia|lia|exact V|exact G].
    + lia.
    + split; [exact M1|]. split; [lia|]. split; [lia|]. intros k Hk. apply M4. lia.
Qed.

Lemma copy_addrs_ok start d n : forall a st, u_addr st = a mod 65536 -> u_dist st = d -> lo <= start <= a -> matches start a (Z.of_nat n) d ->
  forall x, In x (copy_addrs n st) -> okay x /\ x < a + Z.of_nat n.
Proof.
  induction n as [|n IH]; intros a st A Dd Ha M x Ix; cbn [copy_addrs In] in Ix; [contradiction|].
  destruct M as (M1 & M2 & M3 & M4). destruct (M4 a ltac:(lia)) as [V E].
  assert (Asm : a mod 65536 = a) by (apply Z.mod_small; lia). rewrite A, Dd, Asm in Ix. rewrite (Z.mod_small (a - d)) in Ix by lia.
  destruct Ix as [<-|[<-|Ix]].
  - split; [apply Hokay; lia|lia].
  - split; [apply Hokay; lia|lia].
  - replace (a + Z.of_nat (S n)) with (a + 1 + Z.of_nat n) by lia. eapply (IH (a + 1)); [| | | |exact Ix].
    + cbn [put_byte u_addr]. rewrite A, Zplus_mod_idemp_l. reflexivity.
    + exact Dd.
    + lia.
    + split; [exact M1|]. split; [lia|]. split; [lia|]. intros k Hk. apply M4. lia.
Qed.

Lemma put_copy s t n a d0 d D start S : (t = COPY_TWO /\ n = 2%nat \/ t = COPY_THREE /\ n = 3%nat) ->
  reached s a d0 (upto D start a) S -> S <= total -> lo <= start <= a -> matches start a (Z.of_nat n) d ->
  wpx Over (put_item s t d) (fun s' => reached s' (a + Z.of_nat n) d (upto D start (a + Z.of_nat n)) (S + 73)).
Proof.
  intros T (I & E & Z1 & A & Dd & L & G) HS Ha M. pose proof M as (M1 & _).
  eapply wpx_mono; [apply (put_item_emits Over s I t d total E ltac:(lia) HOver); destruct T as [[-> ->]|[-> ->]]; (reflexivity || (unfold item_ok; cbn [fst snd]; lia))|].
  intros s' E'. exists (I ++ [(t, d)]). split; [exact E'|]. split.
  { rewrite sz_app, sz_1. destruct T as [[-> _]|[-> _]]; cbn [item_bytes]; [change (len [u8 (Z.shiftl (128 - d) 1)]) with 1|change (len [u8 (Z.shiftl (128 - d) 1 + 1)]) with 1]; lia. }
  rewrite run_snoc. set (st := run_items I st0) in *.
  assert (R : run_item st (t, d) = copy n (mkUnpacker (u_mem st) (u_addr st) d)) by (destruct T as [[-> ->]|[-> ->]]; reflexivity).
  rewrite R. destruct (copy_good D start d n a (mkUnpacker (u_mem st) (u_addr st) d) A eq_refl G ltac:(lia) M) as (B1 & B2 & B3).
  split; [exact B1|]. split; [intros _; exact B2|]. split; [|exact B3].
  apply (light_snoc I a); [exact L|lia| |].
  - pose proof (Rmono a (a + Z.of_nat n) ltac:(lia)). assert (wt (t, d) = 129) by (destruct T as [[-> _]|[-> _]]; reflexivity). lia.
  - fold st. assert (IA : item_addrs st (t, d) = copy_addrs n (mkUnpacker (u_mem st) (u_addr st) d)) by (destruct T as [[-> ->]|[-> ->]]; reflexivity).
    rewrite IA. exact (copy_addrs_ok start d n a (mkUnpacker (u_mem st) (u_addr st) d) A eq_refl Ha M).
Qed.

Lemma put_many s n a d D start S : reached s a d (upto D start a) S -> S <= total -> lo <= start <= a -> 3 <= n <= 255 -> matches start a n d ->
  wpx Over (put_item s COPY_MANY n) (fun s' => reached s' (a + n) d (upto D start (a + n)) (S + 137)).
Proof.
  intros (I & E & Z1 & A & Dd & L & G) HS Ha Hn M. pose proof M as (M1 & _).
  eapply wpx_mono; [apply (put_item_emits Over s I COPY_MANY n total E ltac:(lia) HOver); [unfold item_ok; cbn [fst snd]; lia|reflexivity]|].
  intros s' E'. exists (I ++ [(COPY_MANY, n)]). split; [exact E'|]. split; [rewrite sz_app, sz_1; cbn [item_bytes]; change (len [1; u8 n]) with 2; lia|].
  rewrite run_snoc. cbn [run_item]. set (st := run_items I st0) in *.
  assert (M' : matches start a (Z.of_nat (Z.to_nat n)) d) by (rewrite Z2Nat.id by lia; exact M).
  destruct (copy_good D start d (Z.to_nat n) a st A (Dd ltac:(lia)) G ltac:(lia) M') as (B1 & B2 & B3). rewrite Z2Nat.id in B1, B3 by lia.
  split; [exact B1|]. split; [intros _; exact B2|]. split; [|exact B3].
  apply (light_snoc I a); [exact L|lia| |].
  - pose proof (Rmono a (a + n) ltac:(lia)). change (wt (COPY_MANY, n)) with 193. lia.
  - fold st. cbn [item_addrs]. pose proof (copy_addrs_ok start d (Z.to_nat n) a st A (Dd ltac:(lia)) Ha M') as CA. rewrite Z2Nat.id in CA by lia. exact CA.
Qed.

Lemma put_address c s a a' d P S : reachedc c s a d P S -> S <= total -> lo <= a' < 65536 -> c < a' -> 0 <= m a' -> a' = lo \/ m (a' - 1) < 0 ->
  wpx Over (put_item s SET_ADDRESS a') (fun s' => reached s' a' d P (S + 201)).
Proof.
  intros (I & E & Z1 & A & Dd & L & G) HS Ha Hc Hv Hn.
  eapply wpx_mono; [apply (put_item_emits Over s I SET_ADDRESS a' total E ltac:(lia) HOver); [unfold item_ok; cbn [fst snd]; lia|reflexivity]|].
  intros s' E'. exists (I ++ [(SET_ADDRESS, a')]). split; [exact E'|]. split; [rewrite sz_app, sz_1; cbn [item_bytes]; change (len [0; u8 (a' - 128); u8 (Z.shiftr (a' - 128) 8)]) with 3; lia|].
  rewrite run_snoc. cbn [run_item u_addr u_dist u_mem]. split; [symmetry; apply Z.mod_small; lia|]. split; [exact Dd|]. split; [|exact G].
  apply (light_snoc I c); [exact L|lia| |intros x []]. change (wt (SET_ADDRESS, a')) with 257. pose proof (Rnew c a' ltac:(lia) Ha Hv Hn). lia.
Qed.

Lemma matches_sub start a n d b k : matches start a n d -> a <= b -> b + k <= a + n -> 0 <= k -> matches start b k d.
Proof.
  intros (M1 & M2 & M3 & M4) H1 H2 H3. split; [exact M1|]. split; [lia|]. split; [lia|]. intros x Hx. apply M4. lia.
Qed.

Lemma mget_ok a : 0 <= a < 65536 -> mget m a = Ok (m a).
Proof. clear Hokay Rmono Rnew Hlo zone okay Rk. intros H. unfold mget. now replace ((0 <=? a) && (a <? 65536)) with true by lia. Qed.

(* ------------------------------------------------------------------ *)
(* a match                                                             *)
Lemma copy_255_ok D start d e : forall fuel s length S, reached s (e - length) d (upto D start (e - length)) S -> lo <= start -> start <= e - length ->
  matches start (e - length) length d -> 0 <= length -> length <= Z.of_nat fuel -> S + 73 * length <= total ->
  wpx Over (copy_255_loop fuel s length) (fun r => let '(s', l) := r in 0 <= l <= 255 /\ l <= length /\ reached s' (e - l) d (upto D start (e - l)) (S + 73 * (length - l)) /\ (4 <= length -> 4 <= l \/ l <= length - 255)).
Proof.
  induction fuel as [|fuel IH]; intros s length S R H0 Hst M Hl Hf HT; cbn [copy_255_loop].
  - replace (255 <? length) with false by lia. cbn [wpx]. split; [lia|]. split; [lia|]. split; [|lia]. eapply reached_mono; [|apply Z.eq_le_incl|exact R]; [trivial|lia].
  - destruct (255 <? length) eqn:E.
    + apply wpx_bind. eapply wpx_mono; [apply (put_many s 255 (e - length) d D start S); try assumption; try lia|].
      { eapply matches_sub; [exact M|lia..]. }
      intros s' R'. replace (e - length + 255) with (e - (length - 255)) in R' by lia.
      eapply wpx_mono; [apply (IH s' (length - 255) (S + 137) R'); try lia; eapply matches_sub; [exact M|lia..]|].
      intros [s2 l] (L1 & L2 & R2 & _). split; [lia|]. split; [lia|]. split; [|lia]. eapply reached_mono; [|apply Z.le_trans with (2 := Z.le_refl _)|exact R2]; [trivial|lia].
    + cbn [wpx]. split; [lia|]. split; [lia|]. split; [|lia]. eapply reached_mono; [|apply Z.eq_le_incl|exact R]; [trivial|lia].
Qed.

(* the end of a match: length bytes are left of those ending at e *)
Definition put_tail (s : fp) (e length d : Z) : outcome fp :=
  '(s, length) <- copy_255_loop fp_fuel s length ;;
  if length =? 0 then Ok s
  else if length =? 1 then v <- mget m (e - 1) ;; put_item s LITERAL v
  else if length =? 2 then put_item s COPY_TWO d
  else if length =? 3 then put_item s COPY_THREE d
  else put_item s COPY_MANY length.

Lemma put_tail_ok D start d e s length S : reached s (e - length) d (upto D start (e - length)) S -> lo <= start -> start <= e - length ->
  matches start (e - length) length d -> 0 <= length <= 65536 -> S + 73 * length <= total ->
  wpx Over (put_tail s e length d) (fun s' => reached s' e d (upto D start e) (S + 73 * length)).
Proof.
  intros R H0 Hst M Hl HT. unfold put_tail. apply wpx_bind.
  eapply wpx_mono; [apply (copy_255_ok D start d e fp_fuel s length S); try assumption; try lia|].
  { unfold fp_fuel. rewrite Z2Nat.id by lia. lia. }
  intros [s1 l] (L1 & L2 & R1 & _).
  assert (M1 : matches start (e - l) l d) by (eapply matches_sub; [exact M|lia..]).
  assert (HS : S + 73 * (length - l) + 73 * l = S + 73 * length) by lia.
  destruct (Z.eqb_spec l 0) as [->|N0].
  { cbn [wpx]. rewrite Z.sub_0_r in R1. eapply reached_mono; [|apply Z.eq_le_incl|exact R1]; [trivial|lia]. }
  destruct (Z.eqb_spec l 1) as [->|N1].
  { pose proof M1 as (_ & M2 & _ & M4). destruct (M4 (e - 1) ltac:(lia)) as [V _]. rewrite mget_ok by lia. cbn [bind].
    eapply wpx_mono; [apply (put_literal s1 (e - 1) d D start _ R1); lia|]. intros s' R'. replace (e - 1 + 1) with e in R' by lia.
    eapply reached_mono; [|apply Z.eq_le_incl|exact R']; [trivial|lia]. }
  destruct (Z.eqb_spec l 2) as [->|N2].
  { eapply wpx_mono; [apply (put_copy s1 COPY_TWO 2 (e - 2) d d D start _ ltac:(left; split; reflexivity) R1); [lia|lia|exact M1]|]. intros s' R'. change (Z.of_nat 2) with 2 in R'. replace (e - 2 + 2) with e in R' by lia.
    eapply reached_mono; [|apply Z.le_trans with (2 := Z.le_refl _)|exact R']; [trivial|lia]. }
  destruct (Z.eqb_spec l 3) as [->|N3].
  { eapply wpx_mono; [apply (put_copy s1 COPY_THREE 3 (e - 3) d d D start _ ltac:(right; split; reflexivity) R1); [lia|lia|exact M1]|]. intros s' R'. change (Z.of_nat 3) with 3 in R'. replace (e - 3 + 3) with e in R' by lia.
    eapply reached_mono; [|apply Z.le_trans with (2 := Z.le_refl _)|exact R']; [trivial|lia]. }
  eapply wpx_mono; [apply (put_many s1 l (e - l) d D start _ R1); [lia|lia|lia|exact M1]|]. intros s' R'. replace (e - l + l) with e in R' by lia.
  eapply reached_mono; [|apply Z.le_trans with (2 := Z.le_refl _)|exact R']; [trivial|lia].
Qed.

Lemma put_long_tail s a n d last :
  put_long m s a n d last =
  '(s, length) <-
    (if negb (d =? last) then
       '(s, length) <-
         (if is_literal_preferred s && (Z.rem n 255 =? 4) then
            v <- mget m a ;; s <- put_item s LITERAL v ;; Ok (s, n - 1)
          else Ok (s, n)) ;;
       s <- put_item s COPY_THREE d ;; Ok (s, length - 3)
     else if is_literal_preferred s && (Z.rem n 255 =? 1) then
       v <- mget m a ;; s <- put_item s LITERAL v ;; Ok (s, n - 1)
     else Ok (s, n)) ;;
  put_tail s (a + n) length d.
Proof. reflexivity. Qed.

Lemma put_long_ok D start d s a n last S : reached s a last (upto D start a) S -> lo <= start <= a -> matches start a n d -> 7 <= n -> S + 73 * n <= total ->
  wpx Over (put_long m s a n d last) (fun s' => reached s' (a + n) d (upto D start (a + n)) (S + 73 * n)).
Proof.
  intros R Ha M Hn HT. pose proof M as (M1 & M2 & M3 & M4). destruct (M4 a ltac:(lia)) as [V _]. rewrite put_long_tail. apply wpx_bind.
  apply (wpx_mono _ _ (fun r => let '(s', l) := r in 0 <= l <= n /\ reached s' (a + n - l) d (upto D start (a + n - l)) (S + 73 * (n - l)))).
  2:{ intros [s' l] (L & R'). eapply wpx_mono; [apply (put_tail_ok D start d (a + n) s' l _ R'); try lia|].
      - eapply matches_sub; [exact M|lia..].
      - intros s2 R2. eapply reached_mono; [|apply Z.le_trans with (2 := Z.le_refl _)|exact R2]; [trivial|lia]. }
  destruct (Z.eqb_spec d last) as [El|Nl]; cbn [negb].
  - subst last. destruct (is_literal_preferred s && (Z.rem n 255 =? 1)).
    + rewrite mget_ok by lia. cbn [bind]. apply wpx_bind. eapply wpx_mono; [apply (put_literal s a d D start S R); lia|]. intros s' R'. cbn [wpx].
      split; [lia|]. replace (a + n - (n - 1)) with (a + 1) by lia. eapply reached_mono; [|apply Z.eq_le_incl|exact R']; [trivial|lia].
    + cbn [wpx]. split; [lia|]. replace (a + n - n) with a by lia. eapply reached_mono; [|apply Z.eq_le_incl|exact R]; [trivial|lia].
  - apply wpx_bind.
    apply (wpx_mono _ _ (fun r => let '(s', l) := r in n - 1 <= l <= n /\ reached s' (a + n - l) last (upto D start (a + n - l)) (S + 73 * (n - l)))).
    + destruct (is_literal_preferred s && (Z.rem n 255 =? 4)).
      * rewrite mget_ok by lia. cbn [bind]. apply wpx_bind. eapply wpx_mono; [apply (put_literal s a last D start S R); lia|]. intros s' R'. cbn [wpx].
        split; [lia|]. replace (a + n - (n - 1)) with (a + 1) by lia. eapply reached_mono; [|apply Z.eq_le_incl|exact R']; [trivial|lia].
      * cbn [wpx]. split; [lia|]. replace (a + n - n) with a by lia. eapply reached_mono; [|apply Z.eq_le_incl|exact R]; [trivial|lia].
    + intros [s' l] (L & R'). apply wpx_bind.
      eapply wpx_mono; [apply (put_copy s' COPY_THREE 3 (a + n - l) last d D start _ ltac:(right; split; reflexivity) R'); [lia|lia|eapply matches_sub; [exact M|lia..]]|].
      intros s2 R2. cbn [wpx]. change (Z.of_nat 3) with 3 in R2. split; [lia|]. replace (a + n - (l - 3)) with (a + n - l + 3) by lia.
      eapply reached_mono; [|apply Z.le_trans with (2 := Z.le_refl _)|exact R2]; [trivial|lia].
Qed.

Ltac weaken R := eapply reached_mono; [|apply Z.le_trans with (2 := Z.le_refl _)|exact R]; [trivial|lia].

Lemma put_match_ok D start d s a n last S : reached s a last (upto D start a) S -> lo <= start <= a -> matches start a n d -> 2 <= n -> S + 73 * n <= total ->
  wpx Over (put_match m s a n d last) (fun s' => reached s' (a + n) d (upto D start (a + n)) (S + 73 * n)).
Proof.
  intros R Ha M Hn HT. pose proof M as (M1 & M2 & M3 & M4). unfold put_match.
  assert (CP : forall t k s a' d0 S', (t = COPY_TWO /\ k = 2%nat \/ t = COPY_THREE /\ k = 3%nat) -> reached s a' d0 (upto D start a') S' -> S' <= total -> a <= a' -> a' + Z.of_nat k <= a + n ->
    wpx Over (put_item s t d) (fun s' => reached s' (a' + Z.of_nat k) d (upto D start (a' + Z.of_nat k)) (S' + 73))).
  { intros t k s1 a' d0 S' T R' HS H1 H2. eapply put_copy; [exact T|exact R'|exact HS|lia|]. eapply matches_sub; [exact M|lia..]. }
  destruct (Z.eqb_spec n 2) as [->|N2].
  { eapply wpx_mono; [apply (CP COPY_TWO 2%nat s a last S ltac:(left; split; reflexivity) R); lia|]. intros s' R'. weaken R'. }
  destruct (Z.eqb_spec n 3) as [->|N3].
  { eapply wpx_mono; [apply (CP COPY_THREE 3%nat s a last S ltac:(right; split; reflexivity) R); lia|]. intros s' R'. weaken R'. }
  destruct (Z.eqb_spec n 4) as [->|N4].
  { destruct (Z.eqb_spec d last) as [<-|Nl].
    - eapply wpx_mono; [apply (put_many s 4 a d D start S R); [lia|lia|lia|exact M]|]. intros s' R'. weaken R'.
    - destruct (is_literal_preferred s).
      + destruct (M4 a ltac:(lia)) as [V _]. rewrite mget_ok by lia. cbn [bind]. apply wpx_bind.
        eapply wpx_mono; [apply (put_literal s a last D start S R); lia|]. intros s1 R1.
        eapply wpx_mono; [apply (CP COPY_THREE 3%nat s1 (a + 1) last _ ltac:(right; split; reflexivity) R1); lia|]. intros s2 R2.
        change (Z.of_nat 3) with 3 in R2. replace (a + 1 + 3) with (a + 4) in R2 by lia. weaken R2.
      + apply wpx_bind. eapply wpx_mono; [apply (CP COPY_THREE 3%nat s a last S ltac:(right; split; reflexivity) R); lia|]. intros s1 R1.
        change (Z.of_nat 3) with 3 in R1. destruct (M4 (a + 3) ltac:(lia)) as [V _]. rewrite mget_ok by lia. cbn [bind].
        eapply wpx_mono; [apply (put_literal s1 (a + 3) d D start _ R1); lia|]. intros s2 R2. replace (a + 3 + 1) with (a + 4) in R2 by lia. weaken R2. }
  destruct (Z.eqb_spec n 5) as [->|N5].
  { destruct (Z.eqb_spec d last) as [<-|Nl].
    - eapply wpx_mono; [apply (put_many s 5 a d D start S R); [lia|lia|lia|exact M]|]. intros s' R'. weaken R'.
    - apply wpx_bind. eapply wpx_mono; [apply (CP COPY_THREE 3%nat s a last S ltac:(right; split; reflexivity) R); lia|]. intros s1 R1.
      eapply wpx_mono; [apply (CP COPY_TWO 2%nat s1 _ d _ ltac:(left; split; reflexivity) R1); lia|]. intros s2 R2.
      replace (a + Z.of_nat 3 + Z.of_nat 2) with (a + 5) in R2 by lia. weaken R2. }
  destruct (Z.eqb_spec n 6) as [->|N6].
  { destruct (Z.eqb_spec d last) as [<-|Nl].
    - eapply wpx_mono; [apply (put_many s 6 a d D start S R); [lia|lia|lia|exact M]|]. intros s' R'. weaken R'.
    - apply wpx_bind. eapply wpx_mono; [apply (CP COPY_THREE 3%nat s a last S ltac:(right; split; reflexivity) R); lia|]. intros s1 R1.
      eapply wpx_mono; [apply (CP COPY_THREE 3%nat s1 _ d _ ltac:(right; split; reflexivity) R1); lia|]. intros s2 R2.
      replace (a + Z.of_nat 3 + Z.of_nat 3) with (a + 6) in R2 by lia. weaken R2. }
  apply put_long_ok; try assumption. lia.
Qed.

(* ------------------------------------------------------------------ *)
(* finding matches                                                     *)
Lemma match_ok a back e : 0 <= back < a -> e < 65536 -> forall fuel n, 0 <= n -> a + n <= e + 1 -> (forall k, a <= k < a + n -> 0 <= m k /\ m k = m (k - (a - back))) ->
  e + 1 - (a + n) <= Z.of_nat fuel ->
  exists n', match_loop fuel m a back e n = Ok n' /\ n <= n' /\ a + n' <= e + 1 /\ forall k, a <= k < a + n' -> 0 <= m k /\ m k = m (k - (a - back)).
Proof. clear Hokay Rmono Rnew Hlo zone okay Rk.
  intros Hb He. induction fuel as [|fuel IH]; intros n Hn Hl Hk Hf; cbn [match_loop].
  - replace (a + n <=? e) with false by lia. exists n. repeat split; try lia; now apply Hk.
  - destruct (a + n <=? e) eqn:E; [|exists n; repeat split; try lia; now apply Hk].
    rewrite mget_ok by lia. cbn [bind]. destruct (m (a + n) <? 0) eqn:E0; [exists n; repeat split; try lia; now apply Hk|].
    rewrite mget_ok by lia. cbn [bind]. destruct (Z.eqb_spec (m (a + n)) (m (back + n))) as [Eq|Nq]; cbn [negb]; [|exists n; repeat split; try lia; now apply Hk].
    destruct (IH (n + 1)) as (n' & E' & L1 & L2 & H'); try lia.
    { intros k Hk'. destruct (Z.eq_dec k (a + n)) as [->|Nk]; [|apply Hk; lia]. split; [lia|]. rewrite Eq. f_equal. lia. }
    exists n'. split; [exact E'|]. split; [lia|]. split; [exact L2|exact H'].
Qed.

Lemma best_ok start e last a inner : 0 <= start <= a -> a <= e < 65536 -> 65537 <= Z.of_nat inner ->
  forall fuel back bm bd, back < a -> back - (a - 128) <= Z.of_nat fuel -> 0 <= bm -> a + bm <= e + 1 -> (0 < bm -> matches start a bm bd) ->
  exists bm' bd', best_loop fuel inner m start e last a back bm bd = Ok (bm', bd') /\ 0 <= bm' /\ a + bm' <= e + 1 /\ (0 < bm' -> matches start a bm' bd').
Proof. clear Hokay Rmono Rnew Hlo zone okay Rk.
  intros Ha He Hi. induction fuel as [|fuel IH]; intros back bm bd Hb Hf Hbm Hbe HM; cbn [best_loop].
  - replace ((start <=? back) && (a - back <? 128)) with false by lia. solve [exists bm, bd; auto].
  - destruct ((start <=? back) && (a - back <? 128)) eqn:E; [|solve [exists bm, bd; auto]].
    destruct (match_ok a back e ltac:(lia) ltac:(lia) inner 0 ltac:(lia) ltac:(lia) ltac:(lia) ltac:(lia)) as (n & -> & L1 & L2 & Hk). cbn [bind].
    assert (MN : matches start a n (a - back)). { split; [lia|]. split; [lia|]. split; [lia|exact Hk]. }
    destruct (bm <? n) eqn:E1.
    + apply IH; try lia. intros _. exact MN.
    + destruct ((bm =? n) && (a - back =? last)) eqn:E2; [|apply IH; try lia; exact HM].
      apply andb_prop in E2. destruct E2 as [E2 E3]. apply Z.eqb_eq in E2, E3. subst n last. apply IH; try lia. intros _. exact MN.
Qed.

(* ------------------------------------------------------------------ *)
(* a run of loaded addresses                                           *)
Lemma run_ok D start e inner : lo <= start -> e < 65536 -> 65537 <= Z.of_nat inner ->
  forall fuel s a last S, reached s a last (upto D start a) S -> start <= a <= e + 1 -> (last = -1 \/ 1 <= last) -> e + 1 - a <= Z.of_nat fuel ->
  S + 73 * (e + 1 - a) <= total \/ (forall a', a <= a' <= e + 1 -> (forall k, a <= k < a' -> 0 <= m k) -> S + 73 * (a' - a) <= total) ->
  wpx Over (run_loop fuel inner m s start e a last) (fun r => let '(s', a', last') := r in
    a <= a' <= e + 1 /\ (forall k, a <= k < a' -> 0 <= m k) /\ (a' = e + 1 \/ m a' < 0) /\ (last' = -1 \/ 1 <= last') /\ reached s' a' last' (upto D start a') (S + 73 * (a' - a))).
Proof.
  intros H0 He Hi. induction fuel as [|fuel IH]; intros s a last S R Ha Hl Hf HT; cbn [run_loop].
  - replace (a <=? e) with false by lia. cbn [bind]. change (0 <=? -1) with false. cbn [wpx]. split; [lia|]. split; [lia|]. split; [lia|]. split; [exact Hl|]. weaken R.
  - assert (HT' : forall a', a <= a' <= e + 1 -> (forall k, a <= k < a' -> 0 <= m k) -> S + 73 * (a' - a) <= total).
    { destruct HT as [HT|HT]; [intros; lia|exact HT]. }
    clear HT. destruct (a <=? e) eqn:E.
    + rewrite mget_ok by lia. cbn [bind]. destruct (0 <=? m a) eqn:V.
      * destruct (best_ok start e last a inner ltac:(lia) ltac:(lia) Hi 128 (a - 1) 0 (-1) ltac:(lia) ltac:(lia) ltac:(lia) ltac:(lia) ltac:(lia)) as (bm & bd & -> & L1 & L2 & M). cbn [bind].
        destruct (bm <=? 1) eqn:E1.
        -- assert (HA : S + 73 * 1 <= total). { replace 1 with (a + 1 - a) by lia. apply HT'; [lia|]. intros k Hk. replace k with a by lia. lia. }
           apply wpx_bind. eapply wpx_mono; [apply (put_literal s a last D start S R); lia|]. intros s1 R1.
           eapply wpx_mono; [apply (IH s1 (a + 1) last (S + 73) R1); try lia; try assumption|].
           { right. intros a' Ha' Hk. replace (S + 73 + 73 * (a' - (a + 1))) with (S + 73 * (a' - a)) by lia. apply HT'; [lia|]. intros k Hk'. destruct (Z.eq_dec k a) as [->|]; [lia|apply Hk; lia]. }
           intros [[s2 a2] l2] (B1 & B2 & B3 & B4 & B5). split; [lia|]. split; [intros k Hk; destruct (Z.eq_dec k a) as [->|]; [lia|apply B2; lia]|]. split; [exact B3|]. split; [exact B4|]. weaken B5.
        -- pose proof (M ltac:(lia)) as MM. pose proof MM as (M1 & M2 & M3 & M4).
           assert (HA : S + 73 * bm <= total). { replace bm with (a + bm - a) by lia. apply HT'; [lia|]. intros k Hk. apply M4. lia. }
           apply wpx_bind. eapply wpx_mono; [apply (put_match_ok D start bd s a bm last S R); try lia; exact MM|]. intros s1 R1.
           eapply wpx_mono; [apply (IH s1 (a + bm) bd (S + 73 * bm) R1); try lia|].
           { right. intros a' Ha' Hk. replace (S + 73 * bm + 73 * (a' - (a + bm))) with (S + 73 * (a' - a)) by lia. apply HT'; [lia|]. intros k Hk'. destruct (Z.lt_ge_cases k (a + bm)); [apply M4; lia|apply Hk; lia]. }
           intros [[s2 a2] l2] (B1 & B2 & B3 & B4 & B5). split; [lia|]. split; [intros k Hk; destruct (Z.lt_ge_cases k (a + bm)); [apply M4; lia|apply B2; lia]|]. split; [exact B3|]. split; [exact B4|]. weaken B5.
      * cbn [wpx]. split; [lia|]. split; [lia|]. split; [right; lia|]. split; [exact Hl|]. weaken R.
    + cbn [bind]. change (0 <=? -1) with false. cbn [wpx]. split; [lia|]. split; [lia|]. split; [left; lia|]. split; [exact Hl|]. weaken R.
Qed.

Lemma skip_ok e : e < 65536 -> forall fuel a, 0 <= a <= e -> e - a <= Z.of_nat fuel ->
  (exists a', skip_free fuel m a e = Ok (Some a') /\ a <= a' <= e /\ 0 <= m a' /\ forall k, a <= k < a' -> m k < 0) \/
  (skip_free fuel m a e = Ok None /\ forall k, a <= k <= e -> m k < 0).
Proof. clear Hokay Rmono Rnew Hlo zone okay Rk.
  intros He. induction fuel as [|fuel IH]; intros a Ha Hf; cbn [skip_free]; rewrite mget_ok by lia; cbn [bind]; destruct (m a <? 0) eqn:V.
  - replace (e <? a + 1) with true by lia. right. split; [reflexivity|]. intros k Hk. replace k with a by lia. lia.
  - left. exists a. split; [reflexivity|]. split; [lia|]. split; lia.
  - destruct (e <? a + 1) eqn:E; [right; split; [reflexivity|]; intros k Hk; replace k with a by lia; lia|].
    destruct (IH (a + 1) ltac:(lia) ltac:(lia)) as [(a' & E1 & B1 & B2 & B3)|[E1 B]].
    + left. exists a'. split; [exact E1|]. split; [lia|]. split; [exact B2|]. intros k Hk. destruct (Z.eq_dec k a) as [->|]; [lia|apply B3; lia].
    + right. split; [exact E1|]. intros k Hk. destruct (Z.eq_dec k a) as [->|]; [lia|apply B; lia].
  - left. exists a. split; [reflexivity|]. split; [lia|]. split; lia.
Qed.

(* ------------------------------------------------------------------ *)
(* the charge for an area: 73/64 of a byte for each loaded address, 201/64 for each run *)
Definition charge (start a : Z) : Z :=
  if m a <? 0 then 0 else 73 + (if (a =? start) || (m (a - 1) <? 0) then 201 else 0).
Fixpoint tally (start : Z) (n : nat) (a : Z) : Z :=
  match n with
  | O => 0
  | S n => charge start a + tally start n (a + 1)
  end.

Lemma charge_nonneg start a : 0 <= charge start a.
Proof. clear Hokay Rmono Rnew Hlo zone okay Rk. unfold charge. destruct (m a <? 0); [lia|]. destruct (_ || _); lia. Qed.

Lemma tally_nonneg start n : forall a, 0 <= tally start n a.
Proof. clear Hokay Rmono Rnew Hlo zone okay Rk. induction n as [|n IH]; intros a; cbn [tally]; [lia|]. pose proof (charge_nonneg start a). specialize (IH (a + 1)). lia. Qed.

Lemma tally_app start n1 n2 : forall a, tally start (n1 + n2) a = tally start n1 a + tally start n2 (a + Z.of_nat n1).
Proof. clear Hokay Rmono Rnew Hlo zone okay Rk.
  induction n1 as [|n1 IH]; intros a; cbn [Nat.add tally]; [now rewrite Z.add_0_r|]. rewrite IH. replace (a + 1 + Z.of_nat n1) with (a + Z.of_nat (S n1)) by lia. lia.
Qed.

Lemma tally_run start n : forall a, (forall k, a <= k < a + Z.of_nat n -> 0 <= m k) -> 73 * Z.of_nat n <= tally start n a.
Proof. clear Hokay Rmono Rnew Hlo zone okay Rk.
  induction n as [|n IH]; intros a H; cbn [tally]; [lia|]. specialize (IH (a + 1) ltac:(intros k Hk; apply H; lia)).
  unfold charge. specialize (H a ltac:(lia)). replace (m a <? 0) with false by lia. destruct (_ || _); lia.
Qed.

Lemma tally_new start n a : (0 < n)%nat -> (forall k, a <= k < a + Z.of_nat n -> 0 <= m k) -> a = start \/ m (a - 1) < 0 -> 201 + 73 * Z.of_nat n <= tally start n a.
Proof. clear Hokay Rmono Rnew Hlo zone okay Rk.
  destruct n as [|n]; [lia|]. intros _ H B. cbn [tally]. pose proof (tally_run start n (a + 1) ltac:(intros k Hk; apply H; lia)).
  unfold charge. specialize (H a ltac:(lia)). replace (m a <? 0) with false by lia. replace ((a =? start) || (m (a - 1) <? 0)) with true by lia. lia.
Qed.

Lemma area_ok D start e inner S0 : start = lo -> start <= e -> e < 65536 -> 65537 <= Z.of_nat inner -> S0 + tally start (Z.to_nat (e + 1 - start)) start <= total ->
  forall fuel s a last pos c S, reachedc c s pos last (upto D start a) S -> start <= a <= e + 1 -> (last = -1 \/ 1 <= last) ->
  (a = start \/ a = e + 1 \/ m a < 0) -> c <= a -> (c < a \/ a = e + 1 \/ m a < 0) -> (c < start \/ 0 <= m (c - 1)) -> S <= S0 + tally start (Z.to_nat (a - start)) start -> e + 1 - a <= Z.of_nat fuel ->
  wpx Over (area_loop fuel inner m s start e a last) (fun s' => exists pos' c', c' <= e + 1 /\ (c' < start \/ 0 <= m (c' - 1)) /\ reachedc c' s' pos' (-1) (upto D start (e + 1)) (S0 + tally start (Z.to_nat (e + 1 - start)) start)).
Proof.
  intros Hst Hs He Hi HT. induction fuel as [|fuel IH]; intros s a last pos c S R Ha Hl Hb Hc1 Hc2 Hc3 HS Hf; cbn [area_loop].
  - replace (a <=? e) with false by lia. cbn [wpx]. exists pos, c. split; [lia|]. split; [exact Hc3|]. replace (e + 1) with a by lia. destruct R as (I & E & Z1 & A & Dd & L & G). exists I. split; [exact E|]. split; [lia|]. split; [exact A|]. split; [congruence|]. split; [exact L|exact G].
  - assert (TS : forall b, start <= b <= e + 1 -> tally start (Z.to_nat (e + 1 - start)) start = tally start (Z.to_nat (b - start)) start + tally start (Z.to_nat (e + 1 - b)) b).
    { intros b Hbb. replace (Z.to_nat (e + 1 - start)) with (Z.to_nat (b - start) + Z.to_nat (e + 1 - b))%nat by lia. rewrite tally_app. f_equal. f_equal. lia. }
    destruct (a <=? e) eqn:E.
    2:{ cbn [wpx]. exists pos, c. split; [lia|]. split; [exact Hc3|]. replace (e + 1) with a by lia. destruct R as (I & E1 & Z1 & A & Dd & L & G). exists I. split; [exact E1|]. split; [lia|]. split; [exact A|]. split; [congruence|]. split; [exact L|exact G]. }
    destruct (skip_ok e He inner a ltac:(lia) ltac:(lia)) as [(a' & -> & B1 & B2 & B3)|[-> B]]; cbn [bind].
    + assert (CA : c < a').
      { destruct (Z.eq_dec a a') as [<-|N]; [destruct Hc2 as [H|[H|H]]; lia|lia]. }
      clear Hc1 Hc2 Hc3.
      assert (R' : reachedc c s pos last (upto D start a') S).
      { destruct R as (I & E1 & Z1 & A & Dd & L & G). exists I. split; [exact E1|]. split; [exact Z1|]. split; [exact A|]. split; [exact Dd|]. split; [exact L|].
        intros x. destruct (G x) as [G1 G2]. split; [|exact G2]. intros [X1 X2] [P|P]; [apply G1; [now split|now left]|].
        apply G1; [now split|]. right. destruct (Z.lt_ge_cases x a); [lia|]. specialize (B3 x ltac:(lia)). lia. }
      assert (NEW : a' = start \/ m (a' - 1) < 0).
      { destruct (Z.eq_dec a a') as [<-|N]; [destruct Hb as [->|[Hb|Hb]]; [now left|lia|lia]|right; apply B3; lia]. }
      pose proof (TS a' ltac:(lia)) as T1. pose proof (TS a ltac:(lia)) as T0.
      assert (MON : tally start (Z.to_nat (a - start)) start <= tally start (Z.to_nat (a' - start)) start).
      { replace (Z.to_nat (a' - start)) with (Z.to_nat (a - start) + Z.to_nat (a' - a))%nat by (clear - Ha B1; lia). rewrite tally_app. pose proof (tally_nonneg start (Z.to_nat (a' - a)) (start + Z.of_nat (Z.to_nat (a - start)))). lia. }
      assert (RUN : forall b, a' < b <= e + 1 -> (forall k, a' <= k < b -> 0 <= m k) -> 201 + 73 * (b - a') + tally start (Z.to_nat (a' - start)) start <= tally start (Z.to_nat (b - start)) start /\ tally start (Z.to_nat (b - start)) start <= tally start (Z.to_nat (e + 1 - start)) start).
      { intros b Hbb Hk. split.
        - replace (Z.to_nat (b - start)) with (Z.to_nat (a' - start) + Z.to_nat (b - a'))%nat by (clear - Ha B1 Hbb; lia). rewrite tally_app.
          replace (start + Z.of_nat (Z.to_nat (a' - start))) with a' by (clear - Ha B1; lia).
          pose proof (tally_new start (Z.to_nat (b - a')) a' ltac:(lia) ltac:(intros k Hk'; apply Hk; lia) NEW). lia.
        - rewrite (TS b) by lia. pose proof (tally_nonneg start (Z.to_nat (e + 1 - b)) b). lia. }
      assert (ONE : 201 + 73 + tally start (Z.to_nat (a' - start)) start <= tally start (Z.to_nat (e + 1 - start)) start).
      { destruct (RUN (a' + 1) ltac:(lia) ltac:(intros k Hk; replace k with a' by lia; exact B2)) as [X Y]. lia. }
      apply wpx_bind. eapply wpx_mono; [apply (put_address c s pos a' last _ S R'); [lia|lia|exact CA|exact B2|rewrite <- Hst; exact NEW]|]. intros s1 R1. apply wpx_bind.
      eapply wpx_mono; [apply (run_ok D start e inner ltac:(lia) He Hi inner s1 a' last (S + 201) R1); try lia; try assumption|].
      { right. intros b Hbb Hk. destruct (Z.eq_dec b a') as [->|N]; [lia|]. destruct (RUN b ltac:(lia) Hk). lia. }
      intros [[s2 a2] l2] (C1 & C2 & C3 & C4 & C5).
      assert (A2 : a' < a2). { destruct (Z.eq_dec a2 a') as [->|]; [|lia]. clear - C3 B1 B2; destruct C3 as [C3|C3]; lia. }
      destruct (RUN a2 ltac:(clear - A2 C1; lia) C2) as [X Y]. assert (C6 : 0 <= m (a2 - 1)) by (apply C2; clear - A2; lia). clear NEW Hb Hl CA RUN TS.
      apply (IH s2 a2 l2 a2 a2 (S + 201 + 73 * (a2 - a')) C5); try assumption; try (clear - A2 C1 C3 C4 X Y HS MON ONE Hf Ha B1; lia). right; exact C6.
    + cbn [wpx]. exists pos, c. split; [lia|]. split; [exact Hc3|]. destruct R as (I & E1 & Z1 & A & Dd & L & G). exists I. split; [exact E1|].
      pose proof (TS a ltac:(lia)). pose proof (tally_nonneg start (Z.to_nat (e + 1 - a)) a).
      split; [lia|]. split; [exact A|]. split; [congruence|]. split; [exact L|]. intros x. destruct (G x) as [G1 G2]. split; [|exact G2].
      intros [X1 X2] [P|P]; [apply G1; [now split|now left]|]. apply G1; [now split|]. right. destruct (Z.lt_ge_cases x a); [lia|]. specialize (B x ltac:(lia)). lia.
Qed.
End Image.
