(* FlashPack.Compress: the stream for an image, the hole, the blocks of the executable and the packed file. *)
From Verif Require Import Base BaseFacts InfoModel WriterModel WriterProofs SapSpec FlashPackModel FlashSpec FlashEncode FlashCompress.

(* ------------------------------------------------------------------ *)
(* the stream                                                          *)
Definition cost (m : image) (e : Z) : Z := 1370 + tally m e (Z.to_nat (65536 - e)) e + tally m 0 (Z.to_nat (e + 1)) 0.

Lemma end_emits (Over : Prop) s I total : emitted s I -> sz I <= total -> (65536 * 64 < total + 704 -> Over) ->
  wpx Over (s <- put_item s END_OF_STREAM 0 ;; s <- put_items s ;; Ok (fp_out s))
    (fun out => exists chunks (last : list fp_item), out = flat_map chunk_bytes chunks ++ chunk_bytes (last ++ [(END_OF_STREAM, 0)]) /\ Forall whole chunks /\
       (length last <= 63)%nat /\ Forall item_ok last /\ existsb ends last = false /\ I = concat chunks ++ last).
Proof.
  intros E Hs HO.
  assert (X : wpx Over (put_item s END_OF_STREAM 0) (fun s' => exists chunks (last : list fp_item), fp_out s' = flat_map chunk_bytes chunks /\ fp_items s' = last ++ [(END_OF_STREAM, 0)] /\ Forall whole chunks /\
       (length last <= 63)%nat /\ Forall item_ok last /\ existsb ends last = false /\ I = concat chunks ++ last)).
  { destruct E as (chunks & HC & Ho & Hl & -> & Hi & He). unfold put_item. destruct (64 <=? len (fp_items s)) eqn:E64.
    - assert (L64 : length (fp_items s) = 64%nat) by (unfold len in *; lia). rewrite put_items_eq. rewrite Ho.
      assert (W : Forall whole (chunks ++ [fp_items s])) by (apply Forall_app; split; [exact HC|constructor; [now repeat split|constructor]]).
      assert (F : flat_map chunk_bytes chunks ++ chunk_bytes (fp_items s) = flat_map chunk_bytes (chunks ++ [fp_items s])) by (rewrite flat_map_app; cbn [flat_map]; now rewrite app_nil_r).
      assert (C : concat (chunks ++ [fp_items s]) = concat chunks ++ fp_items s) by (rewrite concat_app; cbn [concat]; now rewrite app_nil_r).
      rewrite F. pose proof (chunks_size _ W) as S. rewrite C in S.
      destruct (65536 <? len (flat_map chunk_bytes (chunks ++ [fp_items s]))) eqn:EO; cbn [bind wpx]; [apply HO; lia|].
      exists (chunks ++ [fp_items s]), []. cbn [fp_out fp_items app length existsb]. rewrite C. split; [reflexivity|]. split; [reflexivity|]. split; [exact W|]. split; [lia|]. split; [constructor|]. split; [reflexivity|]. now rewrite app_nil_r.
    - cbn [bind wpx]. exists chunks, (fp_items s). cbn [fp_out fp_items]. split; [exact Ho|]. split; [reflexivity|]. split; [exact HC|]. split; [apply Z.leb_gt in E64; unfold len in E64; change fp_item with (fp_type * Z)%type in *; lia|]. now split. }
  apply wpx_bind. eapply wpx_mono; [exact X|]. intros s' (chunks & last & Ho & Hit & W & L & K & NE & ->). rewrite put_items_eq, Ho, Hit.
  destruct (65536 <? len (flat_map chunk_bytes chunks ++ chunk_bytes (last ++ [(END_OF_STREAM, 0)]))) eqn:EO; cbn [bind wpx fp_out].
  - apply HO. rewrite len_app in EO. pose proof (chunks_size _ W) as S. rewrite sz_app in Hs.
    assert (LL : len (last ++ [(END_OF_STREAM, 0)]) <= 64) by (unfold len; rewrite app_length; cbn [length]; lia).
    pose proof (chunk_size (last ++ [(END_OF_STREAM, 0)]) LL) as CS.
    pose proof (sz_plain (last ++ [(END_OF_STREAM, 0)])) as P1. rewrite sz_app, sz_1, len_app, len_cons in P1.
    change (len (@nil fp_item)) with 0 in P1. change (len (@nil (fp_type * Z))) with 0 in P1. change (len (item_bytes (END_OF_STREAM, 0))) with 2 in P1. pose proof (len_nonneg last). lia.
  - exists chunks, last. split; [reflexivity|]. split; [exact W|]. split; [exact L|]. now split.
Qed.

Lemma poke_emits (Over : Prop) s I a v total : emitted s I -> sz I + 201 <= total -> (65536 * 64 < total + 576 -> Over) -> 0 <= a < 65536 -> 0 <= v < 256 ->
  wpx Over (put_poke s a v) (fun s' => emitted s' (I ++ [(SET_ADDRESS, a); (LITERAL, v)])).
Proof.
  intros E HS HO Ha Hv. unfold put_poke. apply wpx_bind.
  eapply wpx_mono; [apply (put_item_emits Over s I SET_ADDRESS a total E ltac:(lia) HO); [exact Ha|reflexivity]|]. intros s1 E1.
  eapply wpx_mono; [apply (put_item_emits Over s1 (I ++ [(SET_ADDRESS, a)]) LITERAL v total E1)|].
  - rewrite sz_app, sz_1. cbn [item_bytes]. change (len [0; u8 (a - 128); u8 (Z.shiftr (a - 128) 8)]) with 3. lia.
  - exact HO.
  - exact Hv.
  - reflexivity.
  - intros s2 E2. rewrite <- app_assoc in E2. exact E2.
Qed.

Definition poke_items : list fp_item :=
  [(SET_ADDRESS, 54286); (LITERAL, 0); (SET_ADDRESS, 53774); (LITERAL, 0); (SET_ADDRESS, 54272); (LITERAL, 0); (SET_ADDRESS, 54017); (LITERAL, 254); (SET_ADDRESS, 580); (LITERAL, 255)].

Lemma flat_map_length (chunks : list (list fp_item)) : (length chunks <= length (flat_map chunk_bytes chunks))%nat.
Proof. induction chunks as [|c r IH]; cbn [flat_map length]; [lia|]. rewrite app_length. unfold chunk_bytes at 1. cbn [length]. lia. Qed.

(* ---- the addresses used ---- *)
Definition poked (x : Z) : Prop := In x [54286; 53774; 54272; 54017; 580].
(* the data items may touch, what matters for the hole ending at e, and the stretches of data up to an address *)
Definition usable (m : image) (low x : Z) : Prop := poked x \/ low <= x < 65536 /\ 0 <= m x.
Definition below (e x : Z) : Prop := x < e /\ ~ poked x.
Definition upto_runs (m : image) (x : Z) : Z := stretches m (Z.to_nat (x + 1)).

Lemma stretches_mono m n k : (n <= k)%nat -> stretches m n <= stretches m k.
Proof. induction 1 as [|k _ IH]; cbn [stretches]; [lia|]. destruct (starts_at m (Z.of_nat k)); lia. Qed.
Lemma runs_mono m x y : x <= y -> upto_runs m x <= upto_runs m y.
Proof. intros H. apply stretches_mono. lia. Qed.
Lemma runs_new m c a : c < a -> 0 <= a < 65536 -> 0 <= m a -> a = 0 \/ m (a - 1) < 0 -> upto_runs m c + 1 <= upto_runs m a.
Proof.
  intros H Ha V N. unfold upto_runs at 2. replace (Z.to_nat (a + 1)) with (S (Z.to_nat a)) by lia. cbn [stretches]. unfold starts_at. rewrite Z2Nat.id by lia.
  replace ((0 <=? m a) && ((a =? 0) || (m (a - 1) <? 0))) with true by lia. assert (upto_runs m c <= stretches m (Z.to_nat a)) by (apply stretches_mono; lia). lia.
Qed.

Lemma light_pokes m e st0 (zone : Z -> Prop) Rk c : (forall x, poked x -> ~ zone x) -> light st0 (usable m e) zone Rk poke_items c.
Proof.
  intros Hz I1 it I2 E x Ix.
  assert (P : poked x).
  { unfold poke_items in E.
    do 10 (destruct I1 as [|? I1]; [cbn [app] in E; injection E as <- _; cbn in Ix; destruct Ix as [<-|[]] || destruct Ix; unfold poked; cbn [In]; tauto|cbn [app] in E; injection E as <- E]).
    destruct I1; discriminate. }
  split; [now left|]. intros Zx. now apply Hz in Zx.
Qed.

Local Ltac q := match goal with H1 : ?e <= 65535, H2 : 65535 < 65536, H3 : ?e < 65536, H4 : 0 <= ?e |- _ => clear - H1 H2 H3 H4; lia end.

Lemma stream_items (m : image) e st0 : proper_image m -> 0 <= e < 65536 ->
  wpx (65536 * 64 < cost m e + 704) (compress_memory m e) (fun out => exists chunks (last : list fp_item) c,
    out = flat_map chunk_bytes chunks ++ chunk_bytes (last ++ [(END_OF_STREAM, 0)]) /\ Forall whole chunks /\
    (length last <= 63)%nat /\ Forall item_ok last /\ existsb ends last = false /\
    (c <= e + 1 /\ (c < 0 \/ 0 <= m (c - 1)) /\ light st0 (usable m 0) (below e) (upto_runs m) (concat chunks ++ last) c) /\
    forall a, u_mem (run_items (concat chunks ++ last) st0) a = over m (pokes (u_mem st0)) a).
Proof.
  intros Hm He. assert (L1 : e <= 65535) by lia. assert (L2 : 65535 < 65536) by lia. assert (L3 : e < 65536) by lia. assert (L4 : 0 <= e) by lia.
  set (Over := 65536 * 64 < cost m e + 704). set (total := cost m e).
  pose proof (tally_nonneg m e (Z.to_nat (65536 - e)) e) as T1. pose proof (tally_nonneg m 0 (Z.to_nat (e + 1)) 0) as T2.
  assert (TT : 1370 <= total) by (unfold total, cost; lia).
  assert (HO : 65536 * 64 < total + 576 -> Over) by (unfold Over, total; lia).
  assert (HO2 : 65536 * 64 < total + 704 -> Over) by (unfold Over, total; lia).
  assert (E0 : emitted (mkFp [] []) []).
  { exists []. cbn [fp_out fp_items flat_map concat app existsb]. split; [constructor|]. split; [reflexivity|]. split; [change (len (@nil fp_item)) with 0; lia|]. split; [reflexivity|]. split; [constructor|reflexivity]. }
  unfold compress_memory.
  apply wpx_bind. eapply wpx_mono; [apply (poke_emits Over _ _ 54286 0 total E0); [change (sz []) with 0; lia|exact HO|lia|lia]|]. intros s1 E1.
  apply wpx_bind. eapply wpx_mono; [apply (poke_emits Over _ _ 53774 0 total E1); [vm_compute (sz _); lia|exact HO|lia|lia]|]. intros s2 E2.
  apply wpx_bind. eapply wpx_mono; [apply (poke_emits Over _ _ 54272 0 total E2); [vm_compute (sz _); lia|exact HO|lia|lia]|]. intros s3 E3.
  apply wpx_bind. eapply wpx_mono; [apply (poke_emits Over _ _ 54017 254 total E3); [vm_compute (sz _); lia|exact HO|lia|lia]|]. intros s4 E4.
  apply wpx_bind. eapply wpx_mono; [apply (poke_emits Over _ _ 580 255 total E4); [vm_compute (sz _); lia|exact HO|lia|lia]|]. intros s5 E5.
  cbn [app] in E5. fold poke_items in E5. clear E0 E1 E2 E3 E4.
  assert (K1 : 1370 + tally m e (Z.to_nat (65535 + 1 - e)) e <= total) by (change (65535 + 1) with 65536; unfold total, cost; lia).
  assert (K2 : 1370 + tally m e (Z.to_nat (65536 - e)) e + tally m 0 (Z.to_nat (e + 1 - 0)) 0 <= total) by (rewrite Z.sub_0_r; unfold total, cost; lia).
  assert (FF : 65537 <= Z.of_nat fp_fuel) by (unfold fp_fuel; rewrite Z2Nat.id by lia; lia).
  assert (OK1 : forall x, e <= x < 65536 -> 0 <= m x -> usable m e x) by (intros x Hx V; right; now split).
  assert (OK2 : forall x, 0 <= x < 65536 -> 0 <= m x -> usable m 0 x) by (intros x Hx V; right; now split).
  assert (RN : forall c a, c < a -> e <= a < 65536 -> 0 <= m a -> a = e \/ m (a - 1) < 0 -> (fun x : Z => x) c + 1 <= (fun x : Z => x) a) by (intros c a H _ _ _; cbv beta; clear - H; lia).
  assert (RM : forall x y, x <= y -> (fun x : Z => x) x <= (fun x : Z => x) y) by (intros x y H; exact H).
  pose proof (area_ok m st0 (pokes (u_mem st0)) total Over Hm HO e (usable m e) (fun _ => False) (fun x => x) L4 OK1 RM RN (fun _ => False) e 65535 fp_fuel 1370 eq_refl L1 L2 FF) as A1.
  pose proof (area_ok m st0 (pokes (u_mem st0)) total Over Hm HO 0 (usable m 0) (below e) (upto_runs m) (Z.le_refl 0) OK2 (runs_mono m) (runs_new m) (upto (fun _ => False) e 65536) 0 e fp_fuel (1370 + tally m e (Z.to_nat (65536 - e)) e) eq_refl L4 L3 FF) as A2.
  apply wpx_bind. unfold compress_memory_area at 1.
  eapply wpx_mono; [apply A1 with (pos := 581) (c := -1) (S := 1370)|].
  - exact K1.
  - exists poke_items. split; [exact E5|]. split; [vm_compute; discriminate|]. split; [reflexivity|]. split; [congruence|].
    split; [apply light_pokes; tauto|]. intros a. split; [intros _ [[]|H]; clear - H; lia|]. intros _. reflexivity.
  - q.
  - now left.
  - now left.
  - q.
  - left. q.
  - left. q.
  - rewrite Z.sub_diag. change (Z.to_nat 0) with O. cbn [tally]. q.
  - clear - FF L4; lia.
  - intros s6 (pos & c6 & _ & _ & R6). change (65535 + 1) with 65536 in R6. apply wpx_bind. unfold compress_memory_area.
    assert (R7 : reachedc m st0 (pokes (u_mem st0)) (usable m 0) (below e) (upto_runs m) (-1) s6 pos (-1) (upto (upto (fun _ => False) e 65536) 0 0) (1370 + tally m e (Z.to_nat (65536 - e)) e)).
    { destruct R6 as (I & E & Z1 & A & Dd & L & G). exists I. split; [exact E|]. split; [exact Z1|]. split; [exact A|]. split; [exact Dd|]. split.
      - intros I1 it I2 EI x Ix. destruct (L I1 it I2 EI x Ix) as [[P|P] _].
        + split; [now left|]. intros [_ N]. now apply N in P.
        + split; [right; clear - P L4; lia|]. intros [N _]. clear - N P; lia.
      - eapply good_mono; [|exact G]. intros x [H|H]; [exact H|clear - H; lia]. }
    eapply wpx_mono; [apply A2 with (pos := pos) (c := -1) (S := 1370 + tally m e (Z.to_nat (65536 - e)) e)|].
    + exact K2.
    + exact R7.
    + q.
    + now left.
    + now left.
    + q.
    + left. q.
    + left. q.
    + rewrite Z.sub_diag. change (Z.to_nat 0) with O. cbn [tally]. q.
    + clear - FF L3; lia.
    + rewrite Z.sub_0_r. intros s7 (pos7 & c7 & C1 & C2 & I & E & Z1 & _ & _ & L & G).
      eapply wpx_mono; [apply (end_emits Over s7 I total E Z1 HO2)|]. intros out (chunks & last & -> & W & LL & K & NE & EI).
      exists chunks, last, c7. split; [reflexivity|]. split; [exact W|]. split; [exact LL|]. split; [exact K|]. split; [exact NE|]. rewrite EI in L, G. split; [split; [exact C1|]; split; [exact C2|exact L]|].
      intros a. unfold over. destruct (G a) as [G1 G2]. destruct ((0 <=? a) && (a <? 65536) && (0 <=? m a)) eqn:EA.
      -- apply G1; [clear - EA; lia|]. unfold upto. clear - EA L1; lia.
      -- apply G2. clear - EA; lia.
Qed.

Lemma stream_ok_for (m : image) e st0 : proper_image m -> 0 <= e < 65536 ->
  wpx (65536 * 64 < cost m e + 704) (compress_memory m e) (fun out => forall r n, (length out <= n)%nat ->
    exists st', unpack n (out ++ r) st0 = Some st' /\ forall a, u_mem st' a = over m (pokes (u_mem st0)) a).
Proof.
  intros Hm He. eapply wpx_mono; [apply (stream_items m e st0 Hm He)|]. intros out (chunks & last & c & -> & W & L & K & NE & _ & G) r n Hn.
  exists (run_items (concat chunks ++ last) st0). split; [|exact G].
  rewrite <- app_assoc. apply unpack_stream; try assumption. rewrite app_length in Hn. pose proof (flat_map_length chunks). unfold chunk_bytes at 2 in Hn. cbn [length] in Hn. lia.
Qed.

Lemma stream_ok (m : image) e : proper_image m -> 0 <= e < 65536 ->
  wpx (65536 * 64 < cost m e + 704) (compress_memory m e) (fun out => forall st r n, (length out <= n)%nat ->
    exists st', unpack n (out ++ r) st = Some st' /\ forall a, u_mem st' a = over m (pokes (u_mem st)) a).
Proof.
  intros Hm He. pose proof (fun st => stream_ok_for m e st Hm He) as H. pose proof (H (mkUnpacker (fun _ => 0) 0 0)) as H0.
  destruct (compress_memory m e) as [out| |[]|]; cbn [wpx] in *; try exact H0. intros st. apply H.
Qed.

(* ------------------------------------------------------------------ *)
(* the hole                                                            *)
Lemma skip_loaded_ok (m : image) : forall fuel e, 0 <= e < 65536 -> e - 9216 <= Z.of_nat fuel -> 9216 <= e \/ 0 <= m e ->
  skip_loaded fuel m e = Ok None \/ exists e', skip_loaded fuel m e = Ok (Some e') /\ 9216 <= e' <= e /\ m e' < 0.
Proof.
  induction fuel as [|fuel IH]; intros e He Hf Hv; cbn [skip_loaded]; rewrite mget_ok by lia; cbn [bind]; destruct (0 <=? m e) eqn:V.
  - replace (e - 1 <? 9216) with true by lia. now left.
  - right. exists e. split; [reflexivity|]. lia.
  - destruct (e - 1 <? 9216) eqn:E; [now left|]. destruct (IH (e - 1) ltac:(lia) ltac:(lia) ltac:(left; lia)) as [H|(e' & H & R1 & R2)]; [now left|right].
    exists e'. split; [exact H|]. lia.
  - right. exists e. split; [reflexivity|]. lia.
Qed.

Lemma hole_ok (m : image) e : 9216 <= e < 65536 -> forall fuel s, e - 1023 <= s <= e -> 1023 - (e - s) <= Z.of_nat fuel ->
  s = e \/ e - 1023 < s -> (forall a, s <= a <= e -> m a < 0) ->
  (exists s', hole_loop fuel m s e = Ok (true, s') /\ forall a, e - 1023 <= a <= e -> m a < 0) \/
  (exists s', hole_loop fuel m s e = Ok (false, s') /\ e - 1023 <= s' < e /\ 0 <= m s').
Proof.
  intros He. induction fuel as [|fuel IH]; intros s Hs Hf Hq Hm; cbn [hole_loop]; rewrite mget_ok by lia; cbn [bind]; destruct (m (s - 1) <? 0) eqn:V.
  - lia.
  - lia.
  - destruct (1023 <=? e - (s - 1)) eqn:E.
    + left. exists (s - 1). split; [reflexivity|]. intros a Ha. destruct (Z.eq_dec a (s - 1)) as [->|]; [lia|apply Hm; lia].
    + apply IH; try lia. intros a Ha. destruct (Z.eq_dec a (s - 1)) as [->|]; [lia|apply Hm; lia].
  - right. exists (s - 1). split; [reflexivity|]. lia.
Qed.

Lemma find_hole_ok (m : image) : exists e, find_hole m = Ok e /\ (e = -1 \/ 9216 <= e <= 48159 /\ forall a, e - 1023 <= a <= e -> m a < 0).
Proof.
  unfold find_hole. assert (FF : 65537 <= Z.of_nat fp_fuel) by (unfold fp_fuel; rewrite Z2Nat.id by lia; lia).
  assert (H : forall fuel e, 8192 <= e <= 48159 -> e - 8192 < Z.of_nat fuel -> 9216 <= e \/ 0 <= m e ->
    exists e', find_hole_loop fuel fp_fuel m e = Ok e' /\ (e' = -1 \/ 9216 <= e' <= 48159 /\ forall a, e' - 1023 <= a <= e' -> m a < 0)).
  { induction fuel as [|fuel IH]; intros e He Hf Hv; [lia|]. cbn [find_hole_loop].
    destruct (skip_loaded_ok m fp_fuel e ltac:(lia) ltac:(lia) Hv) as [->|(e' & -> & R1 & R2)]; cbn [bind]; [exists (-1); split; [reflexivity|now left]|].
    destruct (hole_ok m e' ltac:(lia) 1024 e' ltac:(lia) ltac:(lia) ltac:(now left) ltac:(intros a Ha; replace a with e' by lia; exact R2)) as [(s' & -> & Q)|(s' & -> & Q1 & Q2)]; cbn [bind].
    - exists e'. split; [reflexivity|]. right. split; [lia|exact Q].
    - apply IH; lia. }
  apply H; lia.
Qed.

(* ------------------------------------------------------------------ *)
(* the blocks                                                          *)
Lemma word_at (pre post : list Z) v : 0 <= v < 65536 -> get_word (pre ++ word v ++ post) (len pre) = Ok v.
Proof.
  intros Hv. unfold get_word, word. pose proof (len_nonneg pre). pose proof (len_nonneg post).
  rewrite !get_ok by (rewrite !len_app, !len_cons; change (len (@nil Z)) with 0; lia). cbn [bind].
  rewrite (at_app2 pre _ (len pre)), (at_app2 pre _ (len pre + 1)) by lia. replace (len pre - len pre) with 0 by lia. replace (len pre + 1 - len pre) with 1 by lia.
  rewrite Z.shiftl_mul_pow2 by lia. change (at_ ([v mod 256; v / 256] ++ post) 0) with (v mod 256). change (at_ ([v mod 256; v / 256] ++ post) 1) with (v / 256).
  change (2 ^ 8) with 256. f_equal. lia.
Qed.

Lemma slice_mid (pre x post : list Z) : slice (pre ++ x ++ post) (len pre) (len pre + len x) = x.
Proof.
  unfold slice. replace (Z.to_nat (len pre + len x - len pre)) with (length x) by (unfold len; lia). replace (Z.to_nat (len pre)) with (length pre) by (unfold len; lia).
  rewrite skipn_app_exact by reflexivity. now apply firstn_app_exact.
Qed.

Lemma len_word v : len (word v) = 2. Proof. reflexivity. Qed.

Lemma load_blocks_ok bs : forall fuel m pre post, Forall proper_block bs -> (length bs <= fuel)%nat ->
  load_blocks fuel m (pre ++ executable bs ++ post) (len pre) (len pre + len (executable bs)) = Ok (load m bs).
Proof.
  induction bs as [|[[mark start] data] bs IH]; intros fuel m pre post HP Hf; cbn [executable flat_map load].
  - change (len (@nil Z)) with 0. destruct fuel; cbn [load_blocks]; replace (len pre + 5 <=? len pre + 0) with false by lia; reflexivity.
  - fold (executable bs). destruct fuel as [|fuel]; [cbn in Hf; lia|]. cbn [length] in Hf.
    pose proof (Forall_inv HP) as (P1 & P2 & P3 & P4 & P5). apply Forall_inv_tail in HP.
    set (last := start + len data - 1).
    set (head := if mark then [255; 255] else []) in *.
    pose proof (len_nonneg pre) as N1. pose proof (len_nonneg (executable bs)) as N2. pose proof (len_nonneg post) as N3.
    pose proof (len_nonneg head) as N4. assert (LH : len head = if mark then 2 else 0) by (unfold head; now destruct mark).
    assert (EB : block_bytes (mark, start, data) = head ++ word start ++ word last ++ data) by reflexivity.
    assert (LB : len (block_bytes (mark, start, data)) = len head + 4 + len data) by (rewrite EB, !len_app, !len_word; lia).
    cbn [load_blocks]. rewrite len_app, LB. replace (len pre + 5 <=? len pre + (len head + 4 + len data + len (executable bs))) with true by (destruct mark; lia).
    set (out := pre ++ (block_bytes (mark, start, data) ++ executable bs) ++ post).
    assert (O1 : out = (pre ++ head) ++ word start ++ (word last ++ data ++ executable bs ++ post)) by (unfold out; rewrite EB, <- !app_assoc; reflexivity).
    assert (O2 : out = (pre ++ head ++ word start) ++ word last ++ (data ++ executable bs ++ post)) by (unfold out; rewrite EB, <- !app_assoc; reflexivity).
    assert (O3 : out = (pre ++ head ++ word start ++ word last) ++ data ++ (executable bs ++ post)) by (unfold out; rewrite EB, <- !app_assoc; reflexivity).
    assert (O4 : out = (pre ++ head ++ word start ++ word last ++ data) ++ executable bs ++ post) by (unfold out; rewrite EB, <- !app_assoc; reflexivity).
    assert (L1 : len (pre ++ head) = len pre + len head) by apply len_app.
    assert (L2 : len (pre ++ head ++ word start) = len pre + len head + 2) by (rewrite !len_app, len_word; lia).
    assert (L3 : len (pre ++ head ++ word start ++ word last) = len pre + len head + 4) by (rewrite !len_app, !len_word; lia).
    assert (L4 : len (pre ++ head ++ word start ++ word last ++ data) = len pre + len head + 4 + len data) by (rewrite !len_app, !len_word; lia).
    assert (W1 : get_word out (len pre + len head) = Ok start) by (rewrite O1, <- L1; apply word_at; lia).
    assert (W2 : get_word out (len pre + len head + 2) = Ok last) by (rewrite O2, <- L2; apply word_at; unfold last; lia).
    assert (ST : (first <- get_word out (len pre) ;; (if first =? 65535 then s <- get_word out (len pre + 2) ;; Ok (len pre + 2, s) else Ok (len pre, first))) = Ok (len pre + len head, start)).
    { destruct mark; rewrite LH in *.
      - assert (W0 : get_word out (len pre) = Ok 65535).
        { replace out with (pre ++ word 65535 ++ (word start ++ word last ++ data ++ executable bs ++ post)) by (rewrite O1, <- !app_assoc; reflexivity). apply word_at. lia. }
        rewrite W0. cbn [bind]. change (65535 =? 65535) with true. cbn iota. rewrite W1. reflexivity.
      - rewrite Z.add_0_r in *. rewrite W1. cbn [bind]. replace (start =? 65535) with false; [reflexivity|]. symmetry. apply Z.eqb_neq. intros ->. now specialize (P5 eq_refl). }
    destruct (get_word out (len pre)) as [first| | |]; cbn [bind] in ST |- *; try discriminate. rewrite ST. cbn [bind]. rewrite W2. cbn [bind].
    replace (last <? start) with false by (unfold last; lia).
    replace (len pre + (len head + 4 + len data + len (executable bs)) <=? len pre + len head + 4 + last - start) with false by (unfold last; lia).
    unfold load_block. replace (len pre + len head + 4 + last - start + 1) with (len pre + len head + 4 + len data) by (unfold last; lia).
    assert (LO : len out = len pre + (len head + 4 + len data + len (executable bs)) + len post) by (unfold out; rewrite !len_app, LB; lia).
    rewrite get_range_ok by lia. cbn [bind].
    assert (SL : slice out (len pre + len head + 4) (len pre + len head + 4 + len data) = data) by (rewrite O3, <- L3; apply slice_mid). rewrite SL.
    rewrite <- L4. replace (len pre + (len head + 4 + len data + len (executable bs))) with (len (pre ++ head ++ word start ++ word last ++ data) + len (executable bs)) by lia.
    rewrite O4. apply IH; [exact HP|lia].
Qed.

Lemma load_proper bs : forall m, proper_image m -> Forall proper_block bs -> proper_image (load m bs).
Proof.
  induction bs as [|[[mark start] data] bs IH]; intros m Hm HP; cbn [load]; [exact Hm|].
  pose proof (Forall_inv HP) as (P1 & P2 & P3 & P4 & P5). apply Forall_inv_tail in HP. apply IH; [|exact HP].
  intros a Ha. destruct ((start <=? a) && (a <=? start + len data - 1)) eqn:E; [|now apply Hm].
  assert (B : byte (at_ data (a - start))) by (apply at_byte; [exact P4|lia]). unfold byte in B. lia.
Qed.

(* ------------------------------------------------------------------ *)
(* a bound for the size                                                *)
Definition inside (a start n : Z) : Z := if (start <=? a) && (a <? start + n) then 1 else 0.
Definition isat (a b : Z) : Z := if a =? b then 1 else 0.
Definition weight (bs : list block) (a : Z) : Z := fold_right (fun '(_, start, data) s => 73 * inside a start (len data) + 201 * isat a start + s) 0 bs.
Fixpoint sum (f : Z -> Z) (n : nat) (a : Z) : Z := match n with O => 0 | S n => f a + sum f n (a + 1) end.

Lemma weight_nonneg bs a : 0 <= weight bs a.
Proof. induction bs as [|[[mk st] d] bs IH]; cbn [weight fold_right]; [lia|]. fold (weight bs a). unfold inside, isat. destruct (_ && _), (a =? st); lia. Qed.

Definition covers (b : block) (a : Z) : Prop := let '(_, start, data) := b in start <= a < start + len data.
Definition first (b : block) : Z := let '(_, start, _) := b in start.

Lemma load_stays bs : forall m a, Forall proper_block bs -> 0 <= m a -> 0 <= load m bs a.
Proof.
  induction bs as [|[[mk st] d] bs IH]; intros m a HP H; cbn [load]; [exact H|].
  pose proof (Forall_inv HP) as (_ & _ & _ & P4 & _). apply Forall_inv_tail in HP. apply IH; [exact HP|].
  destruct ((st <=? a) && (a <=? st + len d - 1)) eqn:E; [|exact H]. pose proof (at_byte' d (a - st) P4) as B. unfold byte in B. lia.
Qed.

Lemma load_covers bs : forall m a b, Forall proper_block bs -> In b bs -> covers b a -> 0 <= load m bs a.
Proof.
  induction bs as [|[[mk st] d] bs IH]; intros m a b HP HI HC; [destruct HI|]. pose proof (Forall_inv HP) as (_ & _ & _ & P4 & _). apply Forall_inv_tail in HP. cbn [load].
  destruct HI as [<-|HI]; [|now apply (IH _ _ b)]. apply load_stays; [exact HP|]. cbn [covers] in HC. replace ((st <=? a) && (a <=? st + len d - 1)) with true by lia.
  pose proof (at_byte' d (a - st) P4) as B. unfold byte in B. lia.
Qed.

Lemma load_covered bs : forall m a, 0 <= load m bs a -> 0 <= m a \/ exists b, In b bs /\ covers b a.
Proof.
  induction bs as [|[[mk st] d] bs IH]; intros m a H; cbn [load] in H; [now left|]. destruct (IH _ _ H) as [H1|(b & HI & HC)].
  - destruct ((st <=? a) && (a <=? st + len d - 1)) eqn:E; [|now left]. right. exists (mk, st, d). split; [now left|]. cbn [covers]. lia.
  - right. exists b. split; [now right|exact HC].
Qed.

Lemma weight_in bs b a : In b bs -> covers b a -> 73 <= weight bs a /\ (a = first b -> 274 <= weight bs a).
Proof.
  induction bs as [|[[mk st] d] bs IH]; intros HI HC; [destruct HI|]. cbn [weight fold_right]. fold (weight bs a). pose proof (weight_nonneg bs a). destruct HI as [<-|HI].
  - cbn [covers first] in *. unfold inside, isat. replace ((st <=? a) && (a <? st + len d)) with true by lia. split; [destruct (a =? st); lia|]. intros ->. rewrite Z.eqb_refl. lia.
  - destruct (IH HI HC) as [I1 I2]. unfold inside, isat. destruct (_ && _), (a =? st); split; try lia; intros Q; specialize (I2 Q); lia.
Qed.

Lemma charge_weight bs start a : Forall proper_block bs -> charge (data_of (program bs)) start a <= weight bs a + 201 * isat a start + 201 * isat a 738.
Proof.
  intros HP. unfold charge. pose proof (weight_nonneg bs a) as N. assert (I1 : 0 <= isat a start <= 1) by (unfold isat; destruct (a =? start); lia). assert (I2 : 0 <= isat a 738 <= 1) by (unfold isat; destruct (a =? 738); lia).
  destruct (data_of (program bs) a <? 0) eqn:E; [lia|].
  assert (V : 0 <= program bs a /\ data_of (program bs) a = program bs a /\ a <> 736 /\ a <> 737).
  { unfold data_of in *. destruct ((a =? 736) || (a =? 737)) eqn:Q; lia. }
  destruct V as (V & _ & NA & NB). destruct (load_covered bs _ a V) as [H|(b & HI & HC)]; [lia|]. destruct (weight_in bs b a HI HC) as [W1 W2].
  destruct ((a =? start) || (data_of (program bs) (a - 1) <? 0)) eqn:Q; [|lia].
  destruct (Z.eqb_spec a start) as [->|NS]; [replace (isat start start) with 1 by (unfold isat; now rewrite Z.eqb_refl); lia|]. cbn [orb] in Q.
  destruct (Z.eq_dec a 738) as [->|N738]; [unfold isat; rewrite Z.eqb_refl; destruct (738 =? start); lia|].
  assert (F : a = first b).
  { destruct b as [[mk st] d]. cbn [covers first] in *. destruct (Z.eq_dec a st) as [|NE]; [assumption|]. exfalso.
    assert (C : covers (mk, st, d) (a - 1)) by (cbn [covers]; lia). pose proof (load_covers bs (fun _ => -1) (a - 1) _ HP HI C) as L. fold (program bs) in L.
    unfold data_of in Q. replace ((a - 1 =? 736) || (a - 1 =? 737)) with false in Q by lia. lia. }
  specialize (W2 F). lia.
Qed.

Lemma sum_le f g n : forall a, (forall x, f x <= g x) -> sum f n a <= sum g n a.
Proof. induction n as [|n IH]; intros a H; cbn [sum]; [lia|]. specialize (IH (a + 1) H). specialize (H a). lia. Qed.

Lemma sum_add f g n : forall a, sum (fun x => f x + g x) n a = sum f n a + sum g n a.
Proof. induction n as [|n IH]; intros a; cbn [sum]; [lia|]. rewrite IH. lia. Qed.

Lemma sum_mul k f n : forall a, sum (fun x => k * f x) n a = k * sum f n a.
Proof. induction n as [|n IH]; intros a; cbn [sum]; [lia|]. rewrite IH. lia. Qed.

Lemma tally_sum m start n : forall a, tally m start n a = sum (charge m start) n a.
Proof. induction n as [|n IH]; intros a; cbn [tally sum]; [reflexivity|]. now rewrite IH. Qed.

Lemma sum_app f n k : forall a, sum f (n + k) a = sum f n a + sum f k (a + Z.of_nat n).
Proof. induction n as [|n IH]; intros a; cbn [Nat.add sum]; [now rewrite Z.add_0_r|]. rewrite IH. replace (a + 1 + Z.of_nat n) with (a + Z.of_nat (S n)) by lia. lia. Qed.

Lemma sum_inside s l n : 0 <= l -> forall a, sum (fun x => inside x s l) n a = Z.max 0 (Z.min (a + Z.of_nat n) (s + l) - Z.max a s).
Proof.
  intros Hl. induction n as [|n IH]; intros a; cbn [sum]; [lia|]. rewrite IH. unfold inside. destruct ((s <=? a) && (a <? s + l)) eqn:E; lia.
Qed.

Lemma sum_isat s n : forall a, sum (fun x => isat x s) n a = if (a <=? s) && (s <? a + Z.of_nat n) then 1 else 0.
Proof.
  induction n as [|n IH]; intros a; cbn [sum]; [match goal with |- context [if ?b then _ else _] => destruct b eqn:E end; lia|]. rewrite IH. unfold isat. destruct (Z.eqb_spec a s) as [->|N].
  - destruct ((s + 1 <=? s) && _) eqn:E; [lia|]. destruct ((s <=? s) && (s <? s + Z.of_nat (S n))) eqn:E2; lia.
  - destruct ((a + 1 <=? s) && (s <? a + 1 + Z.of_nat n)) eqn:E, ((a <=? s) && (s <? a + Z.of_nat (S n))) eqn:E2; lia.
Qed.

Lemma sum_weight bs n : forall a, sum (weight bs) n a = fold_right (fun '(_, start, data) s => 73 * sum (fun x => inside x start (len data)) n a + 201 * sum (fun x => isat x start) n a + s) 0 bs.
Proof.
  intros a. induction bs as [|[[mk st] d] bs IH]; cbn [fold_right].
  - assert (H : forall k b, sum (weight []) k b = 0) by (induction k as [|k IH]; intros b; cbn [sum weight fold_right]; [reflexivity|]; rewrite IH; reflexivity). apply H.
  - rewrite <- IH. rewrite <- !sum_mul, <- !sum_add. reflexivity.
Qed.

Lemma weight_total bs e : Forall proper_block bs -> 0 <= e < 65536 ->
  sum (weight bs) (Z.to_nat (65536 - e)) e + sum (weight bs) (Z.to_nat e) 0 <= 73 * data_len bs + 201 * len bs.
Proof.
  intros HP He. rewrite !sum_weight. induction bs as [|[[mk st] d] bs IH]; cbn [fold_right data_len]; [cbn; lia|]. fold (data_len bs).
  pose proof (Forall_inv HP) as (P1 & P2 & P3 & _). apply Forall_inv_tail in HP. specialize (IH HP). rewrite !sum_inside, !sum_isat by lia. rewrite len_cons.
  rewrite !Z2Nat.id by lia.
  destruct ((e <=? st) && (st <? e + (65536 - e))) eqn:Q1; destruct ((0 <=? st) && (st <? 0 + e)) eqn:Q2; lia.
Qed.

Lemma cost_bound bs e : Forall proper_block bs -> 0 <= e < 65536 -> data_of (program bs) e < 0 ->
  cost (data_of (program bs)) e <= 73 * data_len bs + 201 * len bs + 1973.
Proof.
  intros HP He HE. unfold cost. rewrite !tally_sum. replace (Z.to_nat (e + 1)) with (Z.to_nat e + 1)%nat by lia. rewrite sum_app. cbn [sum].
  replace (0 + Z.of_nat (Z.to_nat e)) with e by lia. assert (C0 : charge (data_of (program bs)) 0 e = 0) by (unfold charge; now replace (data_of (program bs) e <? 0) with true by lia).
  rewrite C0. pose proof (weight_total bs e HP He) as W.
  assert (S1 : forall start n a, sum (charge (data_of (program bs)) start) n a <= sum (weight bs) n a + 201 * sum (fun x => isat x start) n a + 201 * sum (fun x => isat x 738) n a).
  { intros start n a. rewrite <- !sum_mul, <- !sum_add. apply sum_le. intros x. now apply charge_weight. }
  pose proof (S1 e (Z.to_nat (65536 - e)) e) as A1. pose proof (S1 0 (Z.to_nat e) 0) as A2. rewrite !sum_isat in A1, A2. rewrite !Z2Nat.id in A1, A2 by lia.
  destruct ((e <=? 738) && (738 <? e + (65536 - e))) eqn:Q1; destruct ((0 <=? 738) && (738 <? 0 + e)) eqn:Q2;
    destruct ((e <=? e) && (e <? e + (65536 - e))), ((0 <=? 0) && (0 <? 0 + e)); lia.
Qed.

(* ------------------------------------------------------------------ *)
(* the packed file                                                     *)
Lemma data_proper m : proper_image m -> proper_image (data_of m).
Proof. intros H a Ha. unfold data_of. specialize (H a Ha). destruct ((a =? 736) || (a =? 737)); lia. Qed.

Lemma u8_word v : 0 <= v < 65536 -> [u8 v; u8 (Z.shiftr v 8)] = word v.
Proof. intros H. unfold word, u8. rewrite Z.shiftr_div_pow2 by lia. change (2 ^ 8) with 256. f_equal. f_equal. lia. Qed.

Lemma len_depacker org source run : len (depacker org source run) = 88.
Proof. reflexivity. Qed.

Lemma packed_emits stream e run : len stream <= 65536 -> 0 <= e - 87 - len stream -> e < 65536 -> 0 <= run < 65536 ->
  emits (write_packed stream (e - 87 - len stream) (e - 87) e run) (executable (packed stream e run)).
Proof.
  intros H1 H2 H3 H4. pose proof (len_nonneg stream) as N. eapply emits_eq.
  - unfold write_packed. apply emits_seqs. repeat (eapply ea_cons; [first [apply emits_byte|apply emits_word|apply emits_bytes_full]|]). apply ea_nil.
  - unfold packed, executable. cbn [flat_map block_bytes]. rewrite !app_nil_r.
    assert (L : e - 87 - len stream + len (stream ++ depacker (e - 87) (e - 87 - len stream) run) - 1 = e) by (rewrite len_app, len_depacker; lia). rewrite L.
    rewrite !u8_word by lia. unfold depacker. rewrite <- !app_assoc. reflexivity.
Qed.

Lemma length_blocks bs : (length bs <= length (executable bs))%nat.
Proof.
  induction bs as [|[[mk st] d] bs IH]; cbn [executable flat_map length]; [lia|]. fold (executable bs). rewrite app_length. unfold block_bytes. rewrite !app_length. cbn [word length]. lia.
Qed.

Lemma compress_whole bs w rest : Forall proper_block bs -> wf w -> w_out w = executable bs ++ rest -> w_off w = len (executable bs) ->
  let m := program bs in
  match fp_compress w with
  | Ok (true, w') =>
    0 <= m 736 /\ 0 <= m 737 /\ m 252 < 0 /\ m 253 < 0 /\ m 254 < 0 /\ m 255 < 0 /\
    exists stream e, 9216 <= e <= 48159 /\ 8192 <= e - 87 - len stream /\ (forall a, e - 1023 <= a <= e -> data_of m a < 0) /\
      compress_memory (data_of m) e = Ok stream /\ slice (w_out w') 0 (w_off w') = executable (packed stream e (run_of m)) /\
      forall st r n, (length stream <= n)%nat -> exists st', unpack n (stream ++ r) st = Some st' /\ forall a, u_mem st' a = over (data_of m) (pokes (u_mem st)) a
  | Ok (false, w') => w_off w' <= w_end w
  | UB r => r = UbWrite /\ 65536 * 64 < 73 * data_len bs + 201 * len bs + 2677
  | _ => False
  end.
Proof.
  intros HP Hw Ho Hoff m.
  assert (Hm : proper_image m) by (apply load_proper; [intros a Ha; lia|exact HP]).
  unfold fp_compress, fp_prepare. rewrite Ho, Hoff.
  pose proof (load_blocks_ok bs (S (length (executable bs ++ rest))) (fun _ => -1) [] rest HP) as LB. cbn [app] in LB. change (len (@nil Z)) with 0 in LB. rewrite Z.add_0_l in LB.
  rewrite LB by (pose proof (length_blocks bs); rewrite app_length; lia). clear LB. cbn [bind]. fold (program bs). fold m.
  assert (KEEP : w_off w <= w_end w) by (destruct Hw; lia).
  destruct ((m 736 <? 0) || (m 737 <? 0)) eqn:E1; [exact KEEP|].
  destruct ((0 <=? m 252) || (0 <=? m 253) || (0 <=? m 254) || (0 <=? m 255)) eqn:E2; [exact KEEP|].
  change (fun a : Z => if (a =? 736) || (a =? 737) then -1 else m a) with (data_of m).
  destruct (find_hole_ok (data_of m)) as (e & EH & HE). rewrite EH. cbn [bind].
  destruct (Z.eqb_spec e (-1)) as [->|NE]; [exact KEEP|]. destruct HE as [->|[HE HH]]; [congruence|]. cbn [bind].
  pose proof (stream_ok (data_of m) e (data_proper m Hm) ltac:(lia)) as SO.
  destruct (compress_memory (data_of m) e) as [stream| |[]|] eqn:ES; cbn [wpx bind] in SO |- *; try contradiction.
  2:{ split; [reflexivity|]. pose proof (cost_bound bs e HP ltac:(lia) (HH e ltac:(lia))) as CB. fold m in CB. lia. }
  destruct (e - 87 - len stream <? 8192) eqn:E3; [exact KEEP|].
  assert (RUN : m 736 + Z.shiftl (m 737) 8 = run_of m) by (unfold run_of; rewrite Z.shiftl_mul_pow2 by lia; lia). rewrite RUN.
  assert (RR : 0 <= run_of m < 65536) by (unfold run_of; pose proof (Hm 736 ltac:(lia)); pose proof (Hm 737 ltac:(lia)); lia).
  rewrite <- Ho. destruct w as [out off end_]. cbn [w_out w_off w_end] in *.
  assert (W0 : wf (mkW out 0 end_)) by (destruct Hw; split; cbn [w_out w_off w_end] in *; lia).
  pose proof (packed_emits stream e (run_of m) ltac:(lia) ltac:(lia) ltac:(lia) RR) as EM.
  destruct (EM _ W0) as [F1 F2]. cbn [w_off w_end] in F1, F2.
  destruct (Z.le_gt_cases (0 + len (executable (packed stream e (run_of m)))) end_) as [LE|GT].
  - rewrite F1 by lia. split; [lia|]. split; [lia|]. split; [lia|]. split; [lia|]. split; [lia|]. split; [lia|].
    exists stream, e. split; [lia|]. split; [lia|]. split; [exact HH|]. split; [exact ES|]. split; [|exact SO].
    cbn [put w_out w_off]. destruct W0 as [_ W0]. cbn [w_out w_off w_end] in W0. apply slice_splice; lia.
  - destruct F2 as (w' & -> & ST); [lia|]. destruct (st_wf _ _ ST). rewrite (st_end _ _ ST) in *. cbn [w_end] in *. lia.
Qed.

Lemma compress_ok bs w rest : Forall proper_block bs -> wf w -> w_out w = executable bs ++ rest -> w_off w = len (executable bs) ->
  let m := program bs in
  match fp_compress w with
  | Ok (true, w') =>
    0 <= m 736 /\ 0 <= m 737 /\ m 252 < 0 /\ m 253 < 0 /\ m 254 < 0 /\ m 255 < 0 /\
    exists stream e, 9216 <= e <= 48159 /\ 8192 <= e - 87 - len stream /\ (forall a, e - 1023 <= a <= e -> data_of m a < 0) /\
      slice (w_out w') 0 (w_off w') = executable (packed stream e (run_of m)) /\
      forall st r n, (length stream <= n)%nat -> exists st', unpack n (stream ++ r) st = Some st' /\ forall a, u_mem st' a = over (data_of m) (pokes (u_mem st)) a
  | Ok (false, w') => w_off w' <= w_end w
  | UB r => r = UbWrite /\ 65536 * 64 < 73 * data_len bs + 201 * len bs + 2677
  | _ => False
  end.
Proof.
  intros HP Hw Ho Hf m. pose proof (compress_whole bs w rest HP Hw Ho Hf) as H. cbv zeta in H. fold m in H.
  destruct (fp_compress w) as [[[] w']| |r|]; try exact H. destruct H as (A & B & C & D & E & F & stream & e & G1 & G2 & G3 & _ & G4).
  split; [exact A|]. split; [exact B|]. split; [exact C|]. split; [exact D|]. split; [exact E|]. split; [exact F|]. exists stream, e. split; [exact G1|]. split; [exact G2|]. split; [exact G3|exact G4].
Qed.
