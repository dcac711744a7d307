(* C63: the command line of asapconv.  Nothing else is in this file. *)
From Coq Require Import String.
From Verif Require Import Base BaseFacts InfoModel InfoSpec OptionModel OptionSpec OptionProofs.

(* A command line written as documented is read as documented: every file is converted
   with the options given before it.  The long form of the sample rate is left out. *)
Theorem C63_reads :
  forall lm l, 2147483647 <= lm -> Forall good l ->
  asapconv_main lm (List.concat (map written l)) = Ok (conversions l initial_options, exit_code l).
Proof. intros lm l L F. apply (main_ok lm l L) with (d := Long OTag). eapply Forall_impl; [|exact F]. intros i G. now left. Qed.
Print Assumptions C63_reads.
Example C63_reads_ex :
  asapconv_main 2147483647 [str "-o"; str ".wav"; str "--song=3"; str "-m1,8"; str "a.sap"]%string = Fail /\
  asapconv_main 2147483647 [str "-o"; str ".wav"; str "--song=3"; str "-m"; str "1,8"; str "-n"; str "x"; str "a.sap"; str "-t"; str "1:02"; str "b.sap"]%string =
    Ok ([(str "a.sap"%string, with_name (Some (str "x"%string)) (with_mute 129 (with_song 3 (with_output (Some (str ".wav"%string)) initial_options))));
         (str "b.sap"%string, with_duration 62000 (with_mute 129 (with_song 3 (with_output (Some (str ".wav"%string)) initial_options))))], 0).
Proof. split; vm_compute; reflexivity. Qed.

(* Nothing else is accepted, but for --sample-rateN and an option at the end whose value
   is missing: so whatever command line is accepted, this is what it means. *)
Theorem C63_only :
  forall lm args r, 2147483647 <= lm -> asapconv_main lm args = Ok r ->
  exists l, Forall accepted l /\
    (args = List.concat (map written l) /\ r = (conversions l initial_options, exit_code l) \/
     exists arg, In arg [str "-o"; str "-a"; str "-n"; str "-d"]%string /\ args = List.concat (map written l) ++ [arg] /\ r = (conversions l initial_options, 1)).
Proof.
  intros lm args r L H. destruct (main_inv lm L (List.length args) args _ _ _ (le_n _) H) as (l & tail & F & E & T). exists l. split; [exact F|]. destruct T as [-> | (arg & -> & D)].
  - left. rewrite app_nil_r in E. split; [exact E|]. unfold asapconv_main in H. rewrite E in H. pose proof (main_ok lm l L F initial_options (Long OTag)) as M. cbn beta iota in M. rewrite M in H. now injection H as <-.
  - right. exists arg. split; [exact D|]. split; [exact E|]. unfold asapconv_main in H. rewrite E, (main_dangling lm l arg L F D) in H. now injection H as <-.
Qed.
Print Assumptions C63_only.
Example C63_only_ex : asapconv_main 2147483647 [str "--sample-rate8000"; str "x"; str "-a"]%string = Ok ([(str "x"%string, with_rate 8000 initial_options)], 1) /\
  asapconv_main 2147483647 [str "-x"; str "x"]%string = Fail /\ asapconv_main 2147483647 [str "--Tag"; str "x"]%string = Fail.
Proof. repeat split; vm_compute; reflexivity. Qed.

(* the numbers that are accepted, whatever the width of long *)
Theorem C63_number :
  forall lm s base v max, base = 10 \/ base = 16 -> 0 <= max < lm ->
  (parse_int lm s base max = Ok v <-> numeral base s v /\ 0 <= v <= max).
Proof.
  intros lm s base v max B L. split; [apply parse_inv; [exact B|lia]|]. intros (N & V). apply parse_ok; [exact B|lia|lia|exact N|lia].
Qed.
Print Assumptions C63_number.
Example C63_number_ex : parse_int 2147483647 (str "99999999999999999999"%string) 10 31 = Fail /\ parse_int 2147483647 (str " +0xfF"%string) 16 65535 = Ok 255 /\
  parse_int 2147483647 (str "-1"%string) 10 31 = Fail /\ parse_int 2147483647 (str "7 "%string) 10 31 = Fail /\ parse_int 2147483647 (str "0x"%string) 16 65535 = Fail.
Proof. repeat split; vm_compute; reflexivity. Qed.

(* bit i of the mask is set for the digit i + 1; other characters mean nothing *)
Theorem C63_mute :
  forall s mask i, 0 <= i -> (Z.testbit (mute_mask s mask) i = true <-> Z.testbit mask i = true \/ i < 8 /\ In (49 + i) s).
Proof.
  intros s mask i I. rewrite mute_bit by exact I. rewrite orb_true_iff, andb_true_iff, existsb_exists, Z.ltb_lt. split; (intros [H|(H & K)]; [now left|right; split; [exact H|]]).
  - destruct K as (x & X & E). apply Z.eqb_eq in E. now subst x.
  - exists (49 + i). split; [exact K|apply Z.eqb_refl].
Qed.
Print Assumptions C63_mute.
Example C63_mute_ex : mute_mask (str "1,3;9 0 8 3"%string) 0 = 133.
Proof. reflexivity. Qed.

(* the documented long form of the sample rate is never accepted: the '=' is taken for a part of the number *)
Theorem C63_sample_rate_refuted :
  (exists s n, good_opt (ORate s n) /\ asapconv_main 2147483647 (written (Short (ORate s n)) ++ [str "a.sap"%string]) = Ok ([(str "a.sap"%string, with_rate n initial_options)], 0) /\
     asapconv_main 2147483647 (written (Long (ORate s n)) ++ [str "a.sap"%string]) = Fail) /\
  forall lm s n rest o e, main_loop lm (written (Long (ORate s n)) ++ rest) o e = Fail.
Proof.
  split; [|intros lm s n rest o e; apply rate_fails]. exists (str "48000"%string), 48000. split; [split; [|lia]|split; vm_compute; reflexivity].
  exists [], [], [], (str "48000"%string), [4; 8; 0; 0; 0]. repeat split; auto; [discriminate|]. repeat constructor; unfold digit; lia.
Qed.
Print Assumptions C63_sample_rate_refuted.

(* an option without its value at the end of the command line: NULL is dereferenced *)
Theorem C63_missing_refuted :
  exists args, asapconv_main 2147483647 args = UB UbRead.
Proof. exists [str "-s"%string]. vm_compute. reflexivity. Qed.
Print Assumptions C63_missing_refuted.
