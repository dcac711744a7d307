(* A stream in memory with the decompressor behind it *)
From Verif Require Import Base BaseFacts MemModel CpuSpec InfoModel WriterModel SapSpec FlashPackModel FlashSpec FlashWitness UnpackSpec UnpackProofs.

Definition tiny_stream : list Z := small_stream.
Definition tiny_mem : mem := st_list mem0 39963 (tiny_stream ++ depacker 40000 39963 8192).
Definition tiny_cpu : cpu := mkCpu 1 2 3 255 40050 false false false false false false tiny_mem.
Definition tiny_start : unpacker := mkUnpacker (ld tiny_mem) 0 128.

Lemma tiny_holds : holds tiny_mem 39963 (tiny_stream ++ depacker 40000 39963 8192).
Proof.
  assert (H : forallb (fun i => ld tiny_mem (39963 + Z.of_nat i) =? at_ (tiny_stream ++ depacker 40000 39963 8192) (Z.of_nat i)) (seq 0 125) = true) by (vm_compute; reflexivity).
  rewrite forallb_forall in H. intros i Hi. change (len (tiny_stream ++ depacker 40000 39963 8192)) with 125 in Hi.
  specialize (H (Z.to_nat i)). rewrite Z2Nat.id in H by lia. apply Z.eqb_eq, H, in_seq. lia.
Qed.
Lemma tiny_bytes : byte_mem tiny_mem.
Proof.
  apply byte_mem_st_list; [apply byte_mem_mem0|]. unfold bytes. apply Forall_forall. intros v Hv.
  assert (H : forallb (fun v => (0 <=? v) && (v <? 256)) (tiny_stream ++ depacker 40000 39963 8192) = true) by (vm_compute; reflexivity).
  rewrite forallb_forall in H. apply H in Hv. unfold byte. lia.
Qed.
Definition freeb (org sp : Z) (t : touch) : bool :=
  let '(a, unread) := t in
  negb (((252 <=? a) && (a <=? 255)) || (a =? 256 + sp) || (a =? 256 + w8 (sp - 1)) || (a =? org + 1) || (a =? org + 2) || (a =? org + 26))
  && negb ((org - unread <=? a) && (a <? org + 88)).
Lemma freeb_ok org sp t : freeb org sp t = true -> free org sp t.
Proof. destruct t as [a k]. unfold freeb, free, own. rewrite andb_true_iff, !negb_true_iff, !orb_false_iff, !andb_false_iff. lia. Qed.
Lemma tiny_free : Forall (free 40000 255) (touches 37 tiny_stream tiny_start).
Proof.
  assert (H : forallb (freeb 40000 255) (touches 37 tiny_stream tiny_start) = true) by (vm_compute; reflexivity).
  rewrite forallb_forall in H. apply Forall_forall. intros t Ht. apply freeb_ok. now apply H.
Qed.
Lemma tiny_runs : exists d, gets tiny_cpu d /\ PC d = 8192 /\ map (ld (M d)) [8192; 8193; 8194; 8195; 8196; 8197; 8198; 8199; 8200; 8201; 580] = [1; 2; 3; 1; 9; 3; 1; 2; 3; 7; 255].
Proof.
  assert (E : exists u', unpack 37 tiny_stream tiny_start = Some u' /\ map (u_mem u') [8192; 8193; 8194; 8195; 8196; 8197; 8198; 8199; 8200; 8201; 580] = [1; 2; 3; 1; 9; 3; 1; 2; 3; 7; 255]) by (eexists; split; [vm_compute; reflexivity|vm_compute; reflexivity]).
  destruct E as (u' & E & V).
  destruct (depacker_runs tiny_cpu 40000 39963 8192 tiny_stream 37 tiny_start u') as (d & G & P & S & Ag); try exact E; try exact tiny_holds; try exact tiny_free; try exact tiny_bytes; try reflexivity; try lia.
  - cbn. unfold byte. lia.
  - exists 224, 170, (tl (tl (tl tiny_stream))). now repeat split.
  - exists d. split; [exact G|]. split; [exact P|]. rewrite <- V. apply map_ext_in. intros a Ha. cbn [In] in Ha. apply Ag; [|unfold own; cbn [SP tiny_cpu]; change (w8 (255 - 1)) with 254]; lia.
Qed.

(* the small executable, packed and loaded *)
Definition small_mem : mem := st_list (st_list (st_list mem0 54017 [255]) 48035 (small_stream ++ depacker 48072 48035 8192)) 736 (word 48122).
Definition small_cpu : cpu := mkCpu 0 0 0 255 48122 false false false false false false small_mem.

Lemma small_in_memory : in_memory small_mem (packed small_stream 48159 8192).
Proof.
  intros mark start data H. cbn [packed In] in H. destruct H as [H|[H|[H|[]]]]; injection H as _ <- <-.
  - intros i Hi. change (len [255]) with 1 in Hi. replace i with 0 by lia. vm_compute. reflexivity.
  - assert (H : forallb (fun i => ld small_mem (48035 + Z.of_nat i) =? at_ (small_stream ++ depacker 48072 48035 8192) (Z.of_nat i)) (seq 0 125) = true) by (vm_compute; reflexivity).
    rewrite forallb_forall in H. change (holds small_mem 48035 (small_stream ++ depacker 48072 48035 8192)). intros i Hi. change (len (small_stream ++ depacker 48072 48035 8192)) with 125 in Hi.
    specialize (H (Z.to_nat i)). rewrite Z2Nat.id in H by lia. apply Z.eqb_eq, H, in_seq. lia.
  - change (holds small_mem 736 [250; 187]). intros i Hi. change (len [250; 187]) with 2 in Hi. assert (Q : i = 0 \/ i = 1) by lia. destruct Q as [->| ->]; vm_compute; reflexivity.
Qed.
Lemma small_bytes : byte_mem small_mem.
Proof.
  assert (B : forall l, forallb (fun v => (0 <=? v) && (v <? 256)) l = true -> bytes l) by (intros l H; rewrite forallb_forall in H; apply Forall_forall; intros v Hv; apply H in Hv; unfold byte; lia).
  repeat apply byte_mem_st_list; try apply byte_mem_mem0; apply B; vm_compute; reflexivity.
Qed.
