(* Common vocabulary of the model: outcomes of a computation, byte arrays,
   C strings.  Nothing here models a particular function of /repo. *)
From Coq Require Export List ZArith Lia Bool.
From Coq Require Export ZifyBool ZifyNat ZifyN.
Export ListNotations.
Global Open Scope Z_scope.

Ltac Zify.zify_post_hook ::= Z.div_mod_to_equations.

(* Why a computation has undefined behaviour in C. *)
Inductive ub_reason :=
| UbRead        (* read outside an object *)
| UbWrite       (* write outside an object *)
| UbNegSize     (* negative length converted to size_t for memcpy/malloc *)
| UbOverflow    (* signed overflow, bad shift, division by zero *)
| UbUninit      (* read of an uninitialised object *)
| UbOverlap     (* memcpy between overlapping ranges *)
| UbAbort.      (* abort() reached: not undefined behaviour, but a crash *)

(* Outcome of a C function.  [Fail] is the function reporting failure to its
   caller (false, -1, NULL: a Fusion exception). *)
Inductive outcome (A : Type) : Type :=
| Ok (a : A)
| Fail
| UB (r : ub_reason)
| OutOfFuel.
Arguments Ok {A} a.
Arguments Fail {A}.
Arguments UB {A} r.
Arguments OutOfFuel {A}.

Definition bind {A B} (m : outcome A) (f : A -> outcome B) : outcome B :=
  match m with
  | Ok a => f a
  | Fail => Fail
  | UB r => UB r
  | OutOfFuel => OutOfFuel
  end.

Declare Scope outcome_scope.
Delimit Scope outcome_scope with outcome.
Notation "x <- m ;; k" := (bind m (fun x => k))
  (at level 61, m at next level, right associativity) : outcome_scope.
Notation "' p <- m ;; k" := (bind m (fun x => let p := x in k))
  (at level 61, p pattern, m at next level, right associativity) : outcome_scope.
Global Open Scope outcome_scope.

Definition guard (b : bool) : outcome unit := if b then Ok tt else Fail.

(* m is well defined: neither undefined behaviour nor divergence *)
Definition defined {A} (m : outcome A) : Prop :=
  match m with Ok _ | Fail => True | _ => False end.

(* Length of a list as Z *)
Definition len {A} (l : list A) : Z := Z.of_nat (length l).

(* Checked array read: a[i] for an array object with exactly these elements. *)
Definition get (l : list Z) (i : Z) : outcome Z :=
  if i <? 0 then UB UbRead
  else match nth_error l (Z.to_nat i) with
       | Some b => Ok b
       | None => UB UbRead
       end.

(* Unchecked total read, used in specifications only. *)
Definition at_ (l : list Z) (i : Z) : Z := nth (Z.to_nat i) l 0.

(* s[i] for a NUL-terminated C string with characters s: index [len s] is the NUL. *)
Definition cget (s : list Z) (i : Z) : outcome Z := get (s ++ [0]) i.

(* Value seen through C string functions of a char buffer holding l and then a NUL. *)
Fixpoint cstr (l : list Z) : list Z :=
  match l with
  | [] => []
  | c :: r => if c =? 0 then [] else c :: cstr r
  end.

(* l[i..j) *)
Definition slice (l : list Z) (i j : Z) : list Z :=
  firstn (Z.to_nat (j - i)) (skipn (Z.to_nat i) l).

(* Checked copy of array[i..j), as done by memcpy: the whole range must lie in the array. *)
Definition get_range (l : list Z) (i j : Z) : outcome (list Z) :=
  if j - i <? 0 then UB UbNegSize
  else if (i <? 0) || (len l <? j) then UB UbRead
  else Ok (slice l i j).

Definition byte (b : Z) : Prop := 0 <= b < 256.
Definition byteb (b : Z) : bool := (0 <=? b) && (b <? 256).
Definition bytes (l : list Z) : Prop := Forall byte l.
Definition bytesb (l : list Z) : bool := forallb byteb l.

Definition u8 (v : Z) : Z := v mod 256.       (* (uint8_t) v *)

(* C integer range, used where overflow matters *)
Definition int_min : Z := -2147483648.
Definition int_max : Z := 2147483647.
Definition is_int (v : Z) : bool := (int_min <=? v) && (v <=? int_max).
Definition chk (v : Z) : outcome Z := if is_int v then Ok v else UB UbOverflow.

(* replace element i of a list *)
Fixpoint upd {A} (l : list A) (i : nat) (v : A) : list A :=
  match l, i with
  | [], _ => []
  | _ :: r, O => v :: r
  | x :: r, S k => x :: upd r k v
  end.

Definition set_nth {A} (l : list A) (i : Z) (v : A) : outcome (list A) :=
  if (i <? 0) || (len l <=? i) then UB UbWrite else Ok (upd l (Z.to_nat i) v).

Definition eqb_list (a b : list Z) : bool :=
  if list_eq_dec Z.eq_dec a b then true else false.
