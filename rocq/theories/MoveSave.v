(* Saving native modules through ASAPWriter_Write. *)
From Coq Require Import String.
From Verif Require Import Base BaseFacts InfoModel InfoSpec Loop NativeModel NativeSpec NativeProofs NativeLoadProofs WindowSpec WriterModel WriterProofs FlashPackModel WriteModel SapSpec NameProofs SaveProofs MoveSpec MoveProofs MoveWrite MoveBack.

Lemma native_not_sap t : native t -> t <> SAP_B /\ t <> SAP_C /\ t <> SAP_D /\ t <> SAP_S /\ t <> FC.
Proof. intros H. repeat (destruct H as [<-|H]; [repeat split; discriminate|]). destruct H. Qed.

Lemma native_original inf f : native (i_type inf) \/ i_type inf = FC -> get_original_module_type inf f = Ok (i_type inf).
Proof. intros H. unfold get_original_module_type. destruct (i_type inf); try reflexivity; cbn in H; intuition discriminate. Qed.

(* asking for the own format reaches the native writer *)
Lemma own_write inf f target tag w e : native (i_type inf) \/ i_type inf = FC -> In e (own_exts inf) -> named target e ->
  api_write target inf f tag w = write_native inf f w.
Proof.
  intros HT He Hn. pose proof (native_original inf f HT) as T.
  assert (E : exists e0, get_original_module_ext inf f = Ok (Some e0) /\ (e = e0 \/ (e0 = tmc_ext /\ e = tm8_ext))).
  { unfold get_original_module_ext. rewrite T. cbn [bind]. unfold own_exts in He.
    destruct (i_type inf); cbn [In] in He; try contradiction; repeat (destruct He as [<-|He]); try contradiction;
      (eexists; split; [reflexivity|]; first [right; split; reflexivity | left; try destruct (_ =? 156); reflexivity]). }
  destruct E as (e0 & E & He0). apply (write_native_named target inf f tag w e0 E). destruct He0 as [->|[-> ->]]; [now left|right; now split].
Qed.

Lemma write_native_own inf f w : native (i_type inf) -> write_native inf f w = n_write f 0 inf (i_type inf) (len f) w.
Proof. intros HT. unfold write_native. repeat (destruct HT as [HT|HT]; [rewrite <- HT; reflexivity|]). destruct HT. Qed.

Lemma own_moved inf f target tag w e : native (i_type inf) -> complete (i_type inf) f -> bytes f -> In e (own_exts inf) -> named target e ->
  wf w -> w_off w = 0 -> len f <= w_end w -> file_word f 4 + distance inf f <= 65535 ->
  exists w', api_write target inf f tag w = Ok (true, w') /\ w_end w' = w_end w /\ is_moved (i_type inf) (distance inf f) f (written w w').
Proof.
  intros HT HC Hb He Hn Hw Ho Hfit Hd. rewrite (own_write inf f target tag w e (or_introl HT) He Hn), write_native_own by exact HT.
  destruct (n_write_to f 0 f inf (i_type inf) ltac:(lia) ltac:(lia) ltac:(reflexivity) Hb HT HC Hd) as [_ E]. rewrite Z.sub_0_r in E.
  set (g := new_byte (i_type inf) (distance inf f) f) in *. pose proof (len_nonneg f).
  assert (L : len (seg g 0 (Z.to_nat (len f))) = len f) by (rewrite len_seg; lia).
  destruct (E w Hw Ho) as [E1 _]. rewrite E1 by lia. eexists. split; [reflexivity|]. split; [reflexivity|].
  rewrite written_put by (try exact Hw; lia). split; [exact L|]. intros i Hi. rewrite at_seg by lia. reflexivity.
Qed.

Lemma own_refused inf f target tag w e : native (i_type inf) -> complete (i_type inf) f -> bytes f -> In e (own_exts inf) -> named target e ->
  65535 < file_word f 4 + distance inf f -> api_write target inf f tag w = Ok (false, w).
Proof.
  intros HT HC Hb He Hn Hd. rewrite (own_write inf f target tag w e (or_introl HT) He Hn), write_native_own by exact HT.
  apply n_write_refused; try assumption; try lia; [reflexivity|]. exact (len6 (i_type inf) f HT HC).
Qed.

(* ---- unchanged ---- *)
Lemma own_same inf f target tag w e : native (i_type inf) -> complete (i_type inf) f -> bytes f -> In e (own_exts inf) -> named target e ->
  wf w -> w_off w = 0 -> len f <= w_end w -> i_music inf < 0 \/ i_music inf = file_word f 2 ->
  exists w', api_write target inf f tag w = Ok (true, w') /\ w_end w' = w_end w /\ written w w' = f.
Proof.
  intros HT HC Hb He Hn Hw Ho Hfit Hm.
  assert (D : distance inf f = 0) by (unfold distance; destruct (Z.ltb_spec (i_music inf) 0); lia).
  assert (W4 : file_word f 4 <= 65535) by (unfold file_word; pose proof (at_byte' f 4 Hb); pose proof (at_byte' f (4 + 1) Hb); unfold byte in *; lia).
  destruct (own_moved inf f target tag w e HT HC Hb He Hn Hw Ho Hfit ltac:(lia)) as (w' & E & HE & M). exists w'. split; [exact E|]. split; [exact HE|].
  rewrite D in M. now apply is_moved_same with (t := i_type inf).
Qed.

Lemma fc_same inf f target tag w e : i_type inf = FC -> bytes f -> In e (own_exts inf) -> named target e -> wf w -> len f <= w_end w - w_off w ->
  exists w', api_write target inf f tag w = Ok (true, w') /\ w_end w' = w_end w /\ written w w' = f.
Proof.
  intros HT Hb He Hn Hw Hfit. rewrite (own_write inf f target tag w e (or_intror HT) He Hn). unfold write_native. rewrite HT. pose proof (len_nonneg f).
  assert (E : emits (write_bytes f 0 (len f)) f) by (eapply emits_eq; [apply emits_bytes; lia|]; apply slice_full).
  destruct (E w Hw) as [E1 _]. rewrite E1 by lia. eexists. split; [reflexivity|]. split; [reflexivity|]. apply written_put; [exact Hw|lia].
Qed.

Lemma loaded_own ext f inf : In ext native_exts -> file_post ext f inf -> In ext (own_exts inf) /\ (native (i_type inf) \/ i_type inf = FC).
Proof.
  intros Hin ((_ & T & _) & _ & FP). unfold own_exts.
  destruct T as [[-> T]|[[-> T]|[[-> T]|[[-> T]|[[-> T]|[[-> T]|[[I T]|[[-> T]|[[I T]|[[-> T]|[-> T]]]]]]]]]]]; rewrite T in *.
  all: try (rewrite FP by tauto). all: try (cbn [In mpt_exts tmc_exts] in I; repeat (destruct I as [<-|I]; [|]); try contradiction; try (rewrite FP by tauto)).
  all: vm_compute; tauto.
Qed.

Lemma fc_type f inf : file_post fc_ext f inf -> i_type inf = FC.
Proof.
  intros ((_ & T & _) & _). destruct T as [[Q T]|[[Q T]|[[Q T]|[[Q T]|[[Q T]|[[Q T]|[[I T]|[[Q T]|[[I T]|[[Q T]|[_ T]]]]]]]]]]]; try discriminate Q; try exact T.
  all: cbn [In mpt_exts tmc_exts] in I; repeat (destruct I as [I|I]; [discriminate I|]); contradiction.
Qed.

Lemma loaded_facts ext f inf : file_post ext f inf -> native (i_type inf) ->
  (i_type inf <> RMT -> complete (i_type inf) f) /\ i_music inf = file_word f 2.
Proof.
  intros H HT. pose proof H as (_ & [[E _]|(_ & M & S)] & _); [subst ext; rewrite (fc_type f inf H) in HT; cbn in HT; intuition discriminate|].
  split; [|exact M]. intros HR. destruct (i_type inf); cbn [shortest complete] in *; try lia; try congruence; cbn in HT; intuition discriminate.
Qed.

Lemma loaded_same fuel self name ext f inf target tag w : In ext native_exts -> named name ext -> named target ext -> bytes f -> len (i_songPos self) = 32 ->
  api_load fuel self (Some name) f = Ok inf -> (i_type inf = RMT -> complete RMT f) -> wf w -> w_off w = 0 -> len f <= w_end w ->
  exists w', api_write target inf f tag w = Ok (true, w') /\ w_end w' = w_end w /\ written w w' = f.
Proof.
  intros Hin Hn Ht Hb Hp HL HR Hw Ho Hfit. pose proof (native_file_result fuel self name ext f inf Hin Hn Hb Hp HL) as P.
  destruct (loaded_own ext f inf Hin P) as [He [HT|HT]].
  - destruct (loaded_facts ext f inf P HT) as [C M]. assert (HC : complete (i_type inf) f).
    { destruct (module_type_eqb (i_type inf) RMT) eqn:E; [assert (ER : i_type inf = RMT) by (destruct (i_type inf); (reflexivity || discriminate)); rewrite ER; now apply HR|].
      apply C. intros ER. rewrite ER in E. discriminate. }
    apply own_same with (e := ext); auto.
  - apply fc_same with (e := ext); auto. lia.
Qed.

(* ---- moved ---- *)
Lemma set_address inf a inf' : api_set_music_address inf a = (true, inf') -> 0 <= a < 65535 /\ inf' = set_music a inf.
Proof. unfold api_set_music_address. destruct ((a <? 0) || (65535 <=? a)) eqn:E; [discriminate|]. intros H. split; [lia|congruence]. Qed.

Lemma own_at inf f target tag w e a inf' : native (i_type inf) -> complete (i_type inf) f -> bytes f -> In e (own_exts inf) -> named target e ->
  wf w -> w_off w = 0 -> len f <= w_end w -> api_set_music_address inf a = (true, inf') ->
  if file_word f 4 + (a - file_word f 2) <=? 65535
  then exists w', api_write target inf' f tag w = Ok (true, w') /\ w_end w' = w_end w /\ is_moved (i_type inf) (a - file_word f 2) f (written w w')
  else api_write target inf' f tag w = Ok (false, w).
Proof.
  intros HT HC Hb He Hn Hw Ho Hfit HA. destruct (set_address _ _ _ HA) as [Ha ->].
  assert (D : distance (set_music a inf) f = a - file_word f 2) by (unfold distance; cbn [set_music i_music]; now replace (a <? 0) with false by lia).
  destruct (Z.leb_spec (file_word f 4 + (a - file_word f 2)) 65535).
  - pose proof (own_moved (set_music a inf) f target tag w e) as M. rewrite D in M. apply M; try assumption.
  - apply own_refused with (e := e); try assumption. rewrite D. lia.
Qed.

Lemma own_back inf f g target tag w e d : native (i_type inf) -> complete (i_type inf) f -> bytes f -> In e (own_exts inf) -> named target e ->
  wf w -> w_off w = 0 -> len f <= w_end w -> movable (i_type inf) d f -> is_moved (i_type inf) d f g -> i_music inf = file_word f 2 ->
  exists w', api_write target inf g tag w = Ok (true, w') /\ w_end w' = w_end w /\ written w w' = f.
Proof.
  intros HT HC Hb He Hn Hw Ho Hfit HV HM Hm. pose proof HV as ((V1 & V2) & V3 & _).
  pose proof (moved_start _ d f g HT HC Hb HM HV) as S2. pose proof (moved_last _ d f g HT HC Hb HM HV) as S4.
  assert (D : distance inf g = - d) by (unfold distance; rewrite Hm; replace (file_word f 2 <? 0) with false by lia; lia).
  assert (L : len g = len f) by apply HM.
  destruct (own_moved inf g target tag w e HT (moved_complete _ d f g HT HC Hb HM HV) (moved_bytes _ d f g Hb HM) He Hn Hw Ho ltac:(lia) ltac:(lia)) as (w' & E & HE & M).
  exists w'. split; [exact E|]. split; [exact HE|]. rewrite D in M. exact (moved_back _ d f g HT HC Hb HM HV _ M).
Qed.

(* the addresses in the moved file *)
Lemma moved_pointers t d f g : native t -> complete t f -> bytes f -> movable t d f -> is_moved t d f g ->
  complete t g /\ file_word g 2 = file_word f 2 + d /\ forall i, 0 <= i < len f -> cell_of t g i = cell_of t f i /\
  match cell_of t f i with
  | Some c => address g c = if (address f c =? 0) || (address f c =? 65535) then address f c else address f c + d
  | None => at_ g i = at_ f i
  end.
Proof.
  intros HT HC Hb HV HM. split; [now apply moved_complete with (d := d) (f := f)|]. split; [now apply moved_start with (t := t)|]. intros i Hi. split; [now apply moved_cells with (d := d)|].
  destruct (cell_of t f i) as [c|] eqn:E; [now apply (moved_address t d f g HT HC Hb HM HV i)|now apply (moved_other t d f g HM i)].
Qed.
