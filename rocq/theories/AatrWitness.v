(* A disk image with a healthy file, a corrupt one, one that never ends and a directory that contains itself. *)
From Coq Require Import String Ascii.
From Verif Require Import Base BaseFacts Loop AatrModel AatrSpec AatrProofs AatrList AatrLister AatrStream.

Definition text (s : string) : list Z := map (fun c => Z.of_nat (nat_of_ascii c)) (list_ascii_of_string s).
Definition pad (n : Z) (v : Z) (l : list Z) : list Z := l ++ repeat v (Z.to_nat (n - len l)).
Definition record_ (status first : Z) (name ext : string) : list Z :=
  [status; 0; 0; first mod 256; first / 256] ++ pad 8 32 (text name) ++ pad 3 32 (text ext).
Definition data_sector (data : list Z) (next last : Z) : list Z := pad 125 0 data ++ [next / 256; next mod 256; last].
Definition image_of (sector : Z -> list Z) (n : nat) : list Z :=
  [0x96; 2; 0; 0; 128; 0; 0; 0; 0; 0; 0; 0; 0; 0; 0; 0] ++ flat_map (fun k => pad 128 0 (sector (Z.of_nat k))) (seq 1 n).

Definition numbers (n : nat) : list Z := map Z.of_nat (seq 1 n).
Definition sectors (s : Z) : list Z :=
  match s with
  | 4 => data_sector (numbers 125) 5 125
  | 5 => data_sector [77; 88] 0 2
  | 6 => data_sector [] 0 200
  | 7 => data_sector [] 7 0
  | 361 => record_ 0x42 4 "GOOD" "SAP" ++ record_ 0x42 6 "BAD" "SAP" ++ record_ 0x42 7 "STUCK" "" ++ record_ 0x80 9 "GONE" "SAP" ++ record_ 0x10 361 "AGAIN" ""
  | _ => []
  end.
Definition floppy : list Z := image_of sectors 361.
Definition disk_of : aatr := mkAatr floppy 128 400.
Definition blank_directory : directory := mkDirectory 0 0 (repeat 0 128).
Definition blank_stream : stream := mkStream 0 0 0 0 (repeat 0 256) 0.
Definition blank_lister : lister := mkLister (repeat blank_directory 20) 0 [].

Lemma floppy_opens : aatr_open floppy = Ok (Some disk_of).
Proof.
  unfold aatr_open. assert (H : read_image floppy 0 6 = Some [0x96; 2; 0; 0; 128; 0]) by (vm_compute; reflexivity). rewrite H. reflexivity.
Qed.
Definition byteb (b : Z) : bool := (0 <=? b) && (b <=? 255).
Lemma bytes_forallb l : forallb byteb l = true -> bytes l.
Proof. intros H. apply Forall_forall. intros x Hx. rewrite forallb_forall in H. specialize (H x Hx). unfold byteb in H. unfold byte. lia. Qed.
Lemma floppy_bytes : bytes floppy.
Proof. apply bytes_forallb. vm_compute. reflexivity. Qed.

Definition found (path : string) : option entry := resolve disk_of [] (text path) (entries disk_of root).
Definition good_entry : entry := mkEntry (text "GOOD.SAP") 0x42 4.

Lemma good_found : found "GOOD.SAP" = Some good_entry /\ found "AGAIN/AGAIN/GOOD.SAP" = Some good_entry /\ found "GONE.SAP" = None /\ found "good.sap" = None.
Proof. vm_compute. auto. Qed.
Lemma good_chain : chain disk_of 2 Complete 4 (numbers 125 ++ [77; 88]).
Proof.
  change (numbers 125 ++ [77; 88]) with (slice (pad 128 0 (sectors 4)) 0 125 ++ slice (pad 128 0 (sectors 5)) 0 2 ++ []).
  eapply chain_sector; [vm_compute; reflexivity|vm_compute; reflexivity|]. eapply chain_sector; [vm_compute; reflexivity|vm_compute; reflexivity|].
  apply chain_end. vm_compute. reflexivity.
Qed.

(* the first calls of NextFile *)
Fixpoint next_files (n : nat) (l : lister) : outcome (list (list Z)) :=
  match n with
  | O => Ok []
  | S n => '(p, l) <- next_file disk_of l ;; match p with None => Ok [] | Some p => rest <- next_files n l ;; Ok (p :: rest) end
  end.
Definition listed (n : nat) : outcome (list (list Z)) := l <- lister_open blank_lister ;; next_files n l.

(* ---- streams that were used before, and files that never end ---- *)
Notation read_it path n s := (fun fuel => read_file fuel disk_of (text path) n blank_directory s).
Definition left_by_bad : stream := Eval vm_compute in match read_it "BAD.SAP" 200 blank_stream 9%nat with Ok (_, _, s) => s | _ => blank_stream end.

Ltac run n := exists n; intros fuel F; repeat (destruct fuel as [|fuel]; [lia|]; apply le_S_n in F); clear F; vm_compute; reflexivity.
Lemma bad_read : exists b, returns (read_it "BAD.SAP" 200 blank_stream) (-1, b, left_by_bad).
Proof. eexists. run 3%nat. Qed.
Lemma good_read : exists b s, returns (read_it "GOOD.SAP" 200 blank_stream) (127, b, s).
Proof. eexists. eexists. run 9%nat. Qed.
Lemma good_unread : exists b s, returns (read_it "GOOD.SAP" 200 left_by_bad) (-1, b, s).
Proof. eexists. eexists. run 1%nat. Qed.

Definition stuck_stream : stream := Eval vm_compute in
  match find_entry_recursively disk_of (text "STUCK") (open_root blank_directory) with Ok (_, d) => match stream_open d blank_stream with Ok s => s | _ => blank_stream end | _ => blank_stream end.
Definition stuck_sector : list Z := data_sector [] 7 0 ++ repeat 0 128.
Definition stuck_later : read_state := (1, 0, Some [0], mkStream 7 2 0 7 stuck_sector 0).
Lemma stuck_forever : gets_stuck (read_it "STUCK" 1 blank_stream).
Proof.
  intros fuel. unfold read_file.
  assert (E : exists d, find_entry_recursively disk_of (text "STUCK") (open_root blank_directory) = Ok (true, d) /\ stream_open d blank_stream = Ok stuck_stream)
    by (eexists; split; vm_compute; reflexivity).
  destruct E as (d & E1 & E2). rewrite E1. cbn [bind]. rewrite E2. cbn [bind]. change (repeat 0 (Z.to_nat 1)) with [0]. unfold stream_read.
  apply (loop_diverges (read_step disk_of 0) (fun r => r = (1, 0, Some [0], stuck_stream) \/ r = stuck_later)); [|auto].
  intros r [-> | ->]; exists stuck_later; (split; [vm_compute; reflexivity|auto]).
Qed.

Lemma good_entries : resolve disk_of [] (text "GOOD.SAP") (entries disk_of root) = Some good_entry.
Proof. vm_compute. reflexivity. Qed.
Definition text_files (n : nat) : list (list Z) := firstn n (map fst (all_files disk_of)).
Lemma some_listed : listed 7 = Ok (text_files 7) /\ nth 6 (text_files 7) [] = text "AGAIN/AGAIN/GOOD.SAP".
Proof. vm_compute. auto. Qed.
