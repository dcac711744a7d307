(* The 64K memory of the emulated machine (asap.c:105, uint8_t memory[65536]).
   Represented by a finite map; the initial contents of malloc'ed memory are an arbitrary map. *)
From Coq Require Import FMapPositive.
From Verif Require Import Base.

Definition mem := PositiveMap.t Z.

Definition mkey (a : Z) : positive := Z.to_pos (a + 1).

(* total access, for addresses known to be in range *)
Definition ld (m : mem) (a : Z) : Z :=
  match PositiveMap.find (mkey a) m with Some v => v | None => 0 end.
Definition st (m : mem) (a v : Z) : mem := PositiveMap.add (mkey a) v m.

Definition in_mem (a : Z) : bool := (0 <=? a) && (a <? 65536).

(* memory[a] *)
Definition rd (m : mem) (a : Z) : outcome Z := if in_mem a then Ok (ld m a) else UB UbRead.
(* memory[a] = (uint8_t) v *)
Definition wr (m : mem) (a v : Z) : outcome mem := if in_mem a then Ok (st m a (u8 v)) else UB UbWrite.

(* memcpy(memory + a, l, len(l)) *)
Fixpoint st_list (m : mem) (a : Z) (l : list Z) : mem :=
  match l with [] => m | v :: r => st_list (st m a v) (a + 1) r end.
Definition wr_list (m : mem) (a : Z) (l : list Z) : outcome mem :=
  if (0 <=? a) && (a + len l <=? 65536) then Ok (st_list m a l) else UB UbWrite.

(* memset(memory, 0, sizeof(memory)) *)
Definition mem0 : mem := PositiveMap.empty Z.

(* every cell holds a byte *)
Definition byte_mem (m : mem) : Prop := forall a, byte (ld m a).

Lemma ld_st_same m a v : ld (st m a v) a = v.
Proof. unfold ld, st. rewrite PositiveMap.gss. reflexivity. Qed.

Lemma ld_st_other m a b v : 0 <= a -> 0 <= b -> a <> b -> ld (st m a v) b = ld m b.
Proof. intros. unfold ld, st, mkey. rewrite PositiveMap.gso; [reflexivity|]. intros E. lia. Qed.

Lemma ld_mem0 a : ld mem0 a = 0.
Proof. unfold ld, mem0. rewrite PositiveMap.gempty. reflexivity. Qed.

Lemma byte_mem_st m a v : byte_mem m -> byte v -> byte_mem (st m a v).
Proof.
  intros H Hv b. unfold ld, st. destruct (Pos.eq_dec (mkey b) (mkey a)) as [->|N].
  - rewrite PositiveMap.gss. exact Hv.
  - rewrite PositiveMap.gso by exact N. apply H.
Qed.

Lemma byte_u8 v : byte (u8 v).
Proof. unfold byte, u8. lia. Qed.

Lemma byte_mem_mem0 : byte_mem mem0.
Proof. intros a. rewrite ld_mem0. unfold byte. lia. Qed.

Lemma byte_mem_st_list m a l : byte_mem m -> bytes l -> byte_mem (st_list m a l).
Proof.
  revert m a. induction l as [|v l IH]; intros m a Hm Hl; [exact Hm|]. cbn [st_list].
  inversion Hl; subst. apply IH; auto. now apply byte_mem_st.
Qed.
