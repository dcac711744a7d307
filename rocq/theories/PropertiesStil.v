(* The properties of the STIL parser. *)
From Coq Require Import String.
From Verif Require Import Base Loop InfoModel StilModel StilSpec StilProofs StilCovers StilFind StilFacts.

(* ---- C39: reading a line ---- *)
Theorem C39_line : forall raw rest a, ~ In 10 raw -> len a = 101 ->
  exists tail, read_line (raw ++ 10 :: rest) a = Ok (len (clean raw), rest, clean raw ++ 0 :: tail) /\ len (clean raw ++ 0 :: tail) = 101.
Proof.
  intros raw rest a H Ha. pose proof (read_line_ok (raw ++ 10 :: rest) a Ha) as Hr.
  assert (E : cut_line (raw ++ 10 :: rest) = Some (raw, rest)).
  { clear - H. induction raw as [|c raw IH]; cbn [app cut_line]; [reflexivity|]. destruct (Z.eqb_spec c 10) as [->|]; [destruct H; left; reflexivity|].
    rewrite IH; [reflexivity|]. intros Hin. apply H. right. exact Hin. }
  rewrite E in Hr. destruct Hr as (a' & E1 & (L & r & ->)). exists r. split; assumption.
Qed.
Print Assumptions C39_line.

(* a line that does not end in a line feed is not seen *)
Theorem C39_end : forall f a, ~ In 10 f -> len a = 101 -> exists tail, read_line f a = Ok (-1, [], 0 :: tail) /\ len (0 :: tail) = 101.
Proof.
  intros f a H Ha. pose proof (read_line_ok f a Ha) as Hr.
  assert (E : cut_line f = None).
  { clear - H. induction f as [|c f IH]; cbn [cut_line]; [reflexivity|]. destruct (Z.eqb_spec c 10) as [->|]; [destruct H; left; reflexivity|].
    rewrite IH; [reflexivity|]. intros Hin. apply H. right. exact Hin. }
  rewrite E in Hr. destruct Hr as (a' & E1 & (L & r & ->)). exists r. split; assumption.
Qed.
Print Assumptions C39_end.
Example C39_example : read_line (str "AB C" ++ [13; 32; 9; 10; 88]) (repeat 7 101) = Ok (4, [88], str "AB C" ++ [0; 9] ++ repeat 7 95).
Proof. vm_compute. reflexivity. Qed.
Example C39_long : clean (repeat 65 99 ++ [32; 66; 67]) = repeat 65 99.
Proof. vm_compute. reflexivity. Qed.

(* ---- C38: memory safety ---- *)
(* The only undefined behaviour is a read in a title of 99 or 100 characters whose times run past its end. *)
Theorem C38_safe : forall fs filename song line self filename_max, 0 <= song -> sized filename_max self -> 0 < filename_max -> len line = 101 -> Forall (fun c => c <> 0) filename ->
  (exists ok self', astil_load fs filename song line self = Ok (ok, self') /\ sized filename_max self') \/
  (astil_load fs filename song line self = UB UbRead /\
   exists p name f l, found filename_max fs filename = Some (p, name, f) /\ In l (lines (text f)) /\ dangling l = true /\ 99 <= len l).
Proof.
  intros fs filename song line self N H1 H2 H3 H4 H5. pose proof (astil_load_ok fs filename song line self N H1 H2 H3 H4 H5) as H.
  pose proof (astil_load_fail fs filename song line self) as HF. destruct (astil_load fs filename song line self) as [[ok self']| |r|]; cbn [wpg] in H.
  - left. exists ok, self'. split; [reflexivity|apply H].
  - congruence.
  - right. destruct H as (-> & H). split; [reflexivity|exact H].
  - destruct H.
Qed.
Print Assumptions C38_safe.

Theorem C38_safe_refuted : exists fs filename song line self filename_max, 0 <= song /\ sized filename_max self /\ 0 < filename_max /\ len line = 101 /\ Forall (fun c => c <> 0) filename /\
  astil_load fs filename song line self = UB UbRead.
Proof.
  exists (only (str "/M/STIL.txt") long_title), song_name, 0, (repeat 7 101), (blank_stil 60), (Z.of_nat 60).
  split; [discriminate|]. split; [apply blank_sized|]. split; [reflexivity|]. split; [reflexivity|]. split; [repeat constructor; discriminate|]. exact long_title_reads.
Qed.
Print Assumptions C38_safe_refuted.

(* ---- C49: what is loaded is what the file says ---- *)
(* bs: whether each title whose times run past the end of its line is cut *)
Theorem C49_contents : forall fs filename song line self filename_max ok self' p name f,
  0 <= song -> sized filename_max self -> 0 < filename_max -> len line = 101 -> Forall (fun c => c <> 0) filename ->
  found filename_max fs filename = Some (p, name, f) -> astil_load fs filename song line self = Ok (ok, self') ->
  ok = true /\ sl_utf8 self' = marked f /\ exists bs, view self' = info_of (dir_of p filename) (below p filename) song (lines (text f)) bs.
Proof.
  intros fs filename song line self N ok self' p name f H1 H2 H3 H4 H5 HF E. pose proof (astil_load_ok fs filename song line self N H1 H2 H3 H4 H5) as H.
  rewrite E in H. cbn [wpg] in H. rewrite HF in H. destruct H as (_ & K1 & _ & K2 & K3). auto.
Qed.
Print Assumptions C49_contents.

(* if no times run past the end of a line, loading is a function of the file *)
Theorem C49_exact : forall fs filename song line self filename_max p name f,
  0 <= song -> sized filename_max self -> 0 < filename_max -> len line = 101 -> Forall (fun c => c <> 0) filename ->
  found filename_max fs filename = Some (p, name, f) -> (forall l, In l (lines (text f)) -> dangling l = false) ->
  exists self', astil_load fs filename song line self = Ok (true, self') /\ sl_utf8 self' = marked f /\
    view self' = info_of (dir_of p filename) (below p filename) song (lines (text f)) [].
Proof.
  intros fs filename song line self N p name f H1 H2 H3 H4 H5 HF HD.
  destruct (C38_safe fs filename song line self N H1 H2 H3 H4 H5) as [(ok & self' & E & _)|(_ & p' & name' & f' & l & HF' & Hl1 & Hl2 & _)].
  - destruct (C49_contents fs filename song line self N ok self' p name f H1 H2 H3 H4 H5 HF E) as (-> & Hu & bs & Hv). exists self'. split; [exact E|]. split; [exact Hu|].
    rewrite Hv. apply info_settled. exact HD.
  - exfalso. assert (f' = f) by congruence. subst f'. rewrite (HD l Hl1) in Hl2. discriminate.
Qed.
Print Assumptions C49_exact.

(* with such times, what the array held before decides about the title *)
Theorem C49_function_refuted : exists fs filename song line1 line2 self filename_max self1 self2,
  0 <= song /\ sized filename_max self /\ 0 < filename_max /\ len line1 = 101 /\ len line2 = 101 /\ Forall (fun c => c <> 0) filename /\
  astil_load fs filename song line1 self = Ok (true, self1) /\ astil_load fs filename song line2 self = Ok (true, self2) /\
  map (fun c => snd (fst (fst c))) (in_covers (view self1)) <> map (fun c => snd (fst (fst c))) (in_covers (view self2)).
Proof.
  exists (only (str "/M/STIL.txt") short_title), song_name, 0, (repeat 7 101), stale, (blank_stil 60), (Z.of_nat 60).
  pose proof short_title_unset as E1. pose proof short_title_stale as E2. unfold result_of in E1, E2.
  destruct (astil_load _ song_name 0 (repeat 7 101) (blank_stil 60)) as [[b1 s1]| | |]; try discriminate E1.
  destruct (astil_load _ song_name 0 stale (blank_stil 60)) as [[b2 s2]| | |]; try discriminate E2.
  exists s1, s2. assert (B1 : b1 = true) by congruence. assert (B2 : b2 = true) by congruence. subst b1 b2.
  split; [discriminate|]. split; [apply blank_sized|]. split; [reflexivity|]. split; [reflexivity|]. split; [reflexivity|]. split; [repeat constructor; discriminate|].
  split; [reflexivity|]. split; [reflexivity|].   assert (W1 : view s1 = mkInfo [] [] [] [] [] [(-1, -1, str "ABC (12", [], [])]) by exact (f_equal (fun o => match o with Some (_, i) => i | None => nothing end) E1). assert (W2 : view s2 = mkInfo [] [] [] [] [] [(-1, -1, str "ABC", [], [])]) by exact (f_equal (fun o => match o with Some (_, i) => i | None => nothing end) E2). rewrite W1, W2. cbn [in_covers map fst snd]. intros H. vm_compute in H. discriminate H.
Qed.
Print Assumptions C49_function_refuted.

(* well-formed times: "  TITLE: text (m:ss)" and "  TITLE: text (m:ss-m:ss)" *)
Theorem C49_start : forall t two m s b, t <> [] -> Forall (fun c => c <> 0) t -> writable two m -> writable true s ->
  times (str "  TITLE: " ++ t ++ [32; 40] ++ stamp_text two m s ++ [41]) b = (60 * m + s, -1, t).
Proof. exact title_start. Qed.
Print Assumptions C49_start.
Theorem C49_range : forall t two m s two2 m2 s2 b, t <> [] -> Forall (fun c => c <> 0) t -> writable two m -> writable true s -> writable two2 m2 -> writable true s2 ->
  times (str "  TITLE: " ++ t ++ [32; 40] ++ (stamp_text two m s ++ 45 :: stamp_text two2 m2 s2) ++ [41]) b = (60 * m + s, 60 * m2 + s2, t).
Proof. exact title_range. Qed.
Print Assumptions C49_range.

Example C49_example : result_of (astil_load (only (str "/M/Docs/STIL.txt") stil_txt) song_name 1 (repeat 7 101) (blank_stil 60)) =
  Some (true, mkInfo (str "Second") (str "Someone") (str "All of A" ++ lf ++ str "and more.") (str "The file") (str "The song")
    [(10, 65, str "Some Tune [from Some Game]", str "Somebody Else", str "Cover"); (-1, -1, [], [], []); (10, -1, str "(0:10)", [], [])]).
Proof. exact stil_txt_loaded. Qed.
Example C49_no_dangling : forallb (fun l => negb (dangling l)) (lines (text stil_txt)) = true.
Proof. vm_compute. reflexivity. Qed.

(* ---- C50: where STIL.txt is looked for ---- *)
Theorem C50_found : forall fs filename song line self filename_max ok self',
  0 <= song -> sized filename_max self -> 0 < filename_max -> len line = 101 -> Forall (fun c => c <> 0) filename ->
  astil_load fs filename song line self = Ok (ok, self') ->
  match found filename_max fs filename with
  | Some (_, name, _) => ok = true /\ cstr (sl_filename self') = name
  | None => ok = false /\ cstr (sl_filename self') = [] /\ view self' = nothing
  end.
Proof.
  intros fs filename song line self N ok self' H1 H2 H3 H4 H5 E. pose proof (astil_load_ok fs filename song line self N H1 H2 H3 H4 H5) as H.
  rewrite E in H. cbn [wpg] in H. destruct H as (_ & H). destruct (found N fs filename) as [[[p name] f]|]; [|exact H]. destruct H as (K1 & K2 & _). auto.
Qed.
Print Assumptions C50_found.

(* the candidates are the directories above the song, the innermost first *)
Theorem C50_candidates : forall filename p name, In (p, name) (candidates filename) <->
  0 <= p < len filename /\ is_slash (at_ filename p) = true /\
  (name = firstn (Z.to_nat (p + 1)) filename ++ str "Docs" ++ [at_ filename p] ++ str "STIL.txt" \/ name = firstn (Z.to_nat (p + 1)) filename ++ str "STIL.txt").
Proof.
  intros filename p name. unfold candidates. rewrite in_flat_map. split.
  - intros (q & Hq & Hin). apply slashes_in in Hq. rewrite Z.sub_0_r, Z.add_0_l in Hq. unfold tried in Hin. cbn [In] in Hin.
    destruct Hin as [E|[E|[]]]; assert (q = p) by congruence; subst q; (split; [apply Hq|split; [apply Hq|]]); [left|right]; congruence.
  - intros (H1 & H2 & H3). exists p. split; [apply slashes_in; rewrite Z.sub_0_r, Z.add_0_l; auto|]. unfold tried. cbn [In]. destruct H3 as [->| ->]; auto.
Qed.
Print Assumptions C50_candidates.
Theorem C50_order : forall filename p q r, slashes 0 filename = q :: r -> In p r -> p < q.
Proof.
  intros filename p q r E Hp. pose proof (slashes_next filename (length filename) q r (Nat.le_refl _)) as Hn. rewrite firstn_all in Hn. destruct (Hn E) as (H1 & _ & H2).
  destruct r as [|q' r']; [destruct Hp|]. destruct (slashes_sorted _ _ p _ _ H2 Hp) as (H3 & H4). unfold len in H4. rewrite firstn_length in H4. lia.
Qed.
Print Assumptions C50_order.
Example C50_example : map snd (candidates (str "/M\A/B.SAP")) =
  [str "/M\A/Docs/STIL.txt"; str "/M\A/STIL.txt"; str "/M\Docs\STIL.txt"; str "/M\STIL.txt"; str "/Docs/STIL.txt"; str "/STIL.txt"].
Proof. vm_compute. reflexivity. Qed.
