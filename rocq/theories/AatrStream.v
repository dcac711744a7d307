(* Reading the files of an ATR disk image. *)
From Verif Require Import Base BaseFacts Loop AatrModel AatrSpec AatrProofs WriterProofs.

Lemma loop_returns {S R} (step : S -> outcome (S + R)) s s' r : step s = Ok (inl s') -> returns (fun fuel => loop fuel step s') r -> returns (fun fuel => loop fuel step s) r.
Proof.
  intros E (n & H). exists (Datatypes.S n). intros fuel F. destruct fuel as [|fuel]; [lia|]. cbn [loop]. rewrite E. cbn [bind]. apply H. lia.
Qed.
Lemma loop_leaves {S R} (step : S -> outcome (S + R)) s r : step s = Ok (inr r) -> returns (fun fuel => loop fuel step s) r.
Proof. intros E. exists 0%nat. intros fuel _. destruct fuel; cbn [loop]; rewrite E; reflexivity. Qed.

Lemma copy_into_ok a i l : 0 <= i -> i + len l <= len a -> copy_into a i l = Ok (splice a i l).
Proof. intros H1 H2. unfold copy_into. replace (_ || _) with false by lia. reflexivity. Qed.

Lemma used_range bps t last n : byte last -> bps = 128 \/ bps = 256 -> used bps t last = Some n -> 0 <= n <= 255 /\ n <= bps.
Proof.
  unfold used, byte. intros B P H. destruct (t =? 0).
  - destruct (last <? 128) eqn:C; injection H as <-; lia.
  - destruct (Z.leb_spec last bps); [|discriminate]. injection H as <-. lia.
Qed.

Lemma slice_empty l i j : j <= i -> slice l i j = [].
Proof. intros H. unfold slice. replace (Z.to_nat (j - i)) with 0%nat by lia. reflexivity. Qed.

Section Disk.
  Variable disk : aatr.
  Hypothesis I : image_ok disk.
  Let bps := at_bps disk.

  Lemma bps_cases : bps = 128 \/ bps = 256. Proof. apply I. Qed.

  (* what is left of the file, from the current position on *)
  Definition stream_at (e : ending) (s : stream) (data : list Z) : Prop :=
    len (st_sector s) = 256 /\ bytes (st_sector s) /\ 0 <= st_offset s <= 255 /\
    exists n rest, used bps (st_type s) (at_ (st_sector s) (bps - 1)) = Some n /\ chain disk (st_type s) e (st_next s) rest
      /\ data = slice (st_sector s) (st_offset s) n ++ rest.

  Definition put_buffer (buffer : option (list Z)) (i : Z) (l : list Z) : option (list Z) := match buffer with None => None | Some b => Some (splice b i l) end.
  Definition room (buffer : option (list Z)) (i n : Z) : Prop := match buffer with None => True | Some b => 0 <= i /\ i + n <= len b /\ len b <= int_max end.

  (* reading at most length bytes of data *)
  Definition read_done (e : ending) (length : Z) (data : list Z) (offset total : Z) (buffer : option (list Z)) (s : stream) (r : Z * option (list Z) * stream) : Prop :=
    if (length <=? len data) || (match e with Complete => true | _ => false end) then
      let now := firstn (Z.to_nat length) data in
      fst (fst r) = total + len now /\ snd (fst r) = put_buffer buffer (offset + total) now /\ stream_at e (snd r) (skipn (Z.to_nat length) data)
      /\ st_first (snd r) = st_first s /\ st_type (snd r) = st_type s /\ st_position (snd r) = st_position s + len now
    else fst (fst r) = -1.

  Definition read_ok (t : Z) (e : ending) (next : Z) (rest : list Z) (drained : bool) : Prop :=
    forall s n length total buffer offset, st_next s = next -> st_type s = t ->
    len (st_sector s) = 256 -> bytes (st_sector s) -> 0 <= st_offset s <= 255 -> used bps (st_type s) (at_ (st_sector s) (bps - 1)) = Some n ->
    (drained = true -> n <= st_offset s /\ 0 < length) ->
    let data := slice (st_sector s) (st_offset s) n ++ rest in
    (e = Unknown -> length <= len data) -> 0 <= length -> 0 <= total -> total + length <= int_max -> 0 <= st_position s -> st_position s + Z.min length (len data) <= int_max ->
    room buffer (offset + total) length ->
    exists r, returns (fun fuel => loop fuel (read_step disk offset) (length, total, buffer, s)) r /\ read_done e length data offset total buffer s r.

  Lemma last_byte s : len (st_sector s) = 256 -> bytes (st_sector s) -> byte (at_ (st_sector s) (bps - 1)).
  Proof. intros L B. apply at_byte; [exact B|]. pose proof bps_cases. lia. Qed.

  Lemma step_nothing offset total buffer s : read_step disk offset (0, total, buffer, s) = Ok (inr (total, buffer, s)).
  Proof. reflexivity. Qed.

  Lemma step_bad offset length total buffer s : len (st_sector s) = 256 -> 0 < length -> used bps (st_type s) (at_ (st_sector s) (bps - 1)) = None ->
    read_step disk offset (length, total, buffer, s) = Ok (inr (-1, buffer, s)).
  Proof.
    intros L H U. unfold read_step. cbv zeta. fold bps. pose proof bps_cases. replace (length <=? 0) with false by lia. rewrite get_ok by lia. cbn [bind].
    unfold used in U. destruct (st_type s =? 0); [discriminate|]. destruct (Z.leb_spec (at_ (st_sector s) (bps - 1)) bps); [discriminate|].
    replace (bps <? _) with true by lia. reflexivity.
  Qed.

  Lemma step_used offset length total buffer s n : len (st_sector s) = 256 -> 0 < length -> used bps (st_type s) (at_ (st_sector s) (bps - 1)) = Some n ->
    read_step disk offset (length, total, buffer, s) =
      if n - st_offset s <=? 0 then
        match read_sector disk (st_next s) bps with
        | None => Ok (inr (total, buffer, s))
        | Some data =>
          sector <- copy_into (st_sector s) 0 data ;;
          hi <- get sector (bps - 3) ;;
          lo <- get sector (bps - 2) ;;
          Ok (inl (length, total, buffer, mkStream (st_first s) (st_type s) (st_position s) (Z.lor (Z.shiftl (if st_type s =? 6 then hi else Z.land hi 3) 8) lo) sector 0))
        end
      else
        let got := Z.min length (n - st_offset s) in
        data <- get_range (st_sector s) (st_offset s) (st_offset s + got) ;;
        buffer <- match buffer with
                  | None => Ok None
                  | Some b => at' <- chk (offset + total) ;; b <- copy_into b at' data ;; Ok (Some b)
                  end ;;
        position <- chk (st_position s + got) ;;
        total <- chk (total + got) ;;
        Ok (inl (length - got, total, buffer, mkStream (st_first s) (st_type s) position (st_next s) (st_sector s) (st_offset s + got))).
  Proof.
    intros L H U. unfold read_step. cbv zeta. fold bps. pose proof bps_cases. replace (length <=? 0) with false by lia. rewrite get_ok by lia. cbn [bind].
    set (last := at_ (st_sector s) (bps - 1)) in *. unfold used in U.
    assert (E : negb (st_type s =? 0) && (bps <? last) = false).
    { destruct (st_type s =? 0); [reflexivity|]. destruct (Z.leb_spec last bps); [|discriminate]. cbn [negb andb]. lia. }
    rewrite E. assert (G : (if st_type s =? 0 then if last <? 128 then 125 else last - 128 else last) = n).
    { destruct (st_type s =? 0); [congruence|]. destruct (last <=? bps); congruence. }
    rewrite G. destruct (n - st_offset s <=? 0); [reflexivity|].
    replace (if length <? n - st_offset s then length else n - st_offset s) with (Z.min length (n - st_offset s)); [reflexivity|].
    destruct (Z.ltb_spec length (n - st_offset s)); lia.
  Qed.

  Lemma step_load offset length total buffer s n sector : len (st_sector s) = 256 -> bytes (st_sector s) -> 0 < length -> used bps (st_type s) (at_ (st_sector s) (bps - 1)) = Some n ->
    n <= st_offset s -> read_sector disk (st_next s) bps = Some sector ->
    exists whole, read_step disk offset (length, total, buffer, s) = Ok (inl (length, total, buffer, mkStream (st_first s) (st_type s) (st_position s) (link bps (st_type s) sector) whole 0))
      /\ len whole = 256 /\ bytes whole /\ at_ whole (bps - 1) = at_ sector (bps - 1) /\ forall k, k <= bps -> slice whole 0 k = slice sector 0 k.
  Proof.
    intros L B H U O R. pose proof bps_cases as P. destruct (read_sector_ok disk _ bps _ I ltac:(lia) R) as [RL RB].
    rewrite (step_used _ _ _ _ _ n) by assumption. replace (n - st_offset s <=? 0) with true by lia. rewrite R. rewrite copy_into_ok by lia. cbn [bind].
    set (whole := splice (st_sector s) 0 sector). assert (W : whole = sector ++ skipn (Z.to_nat (0 + len sector)) (st_sector s)) by reflexivity.
    assert (LW : len whole = 256) by (unfold whole; rewrite len_splice; lia).
    assert (AT : forall k, 0 <= k < bps -> at_ whole k = at_ sector k) by (intros k Hk; rewrite W; apply at_app1; lia).
    exists whole. rewrite !get_ok by lia. cbn [bind]. rewrite !AT by lia. split; [|split; [exact LW|split; [|split; [reflexivity|]]]].
    - do 2 f_equal. f_equal. f_equal. unfold link. rewrite Z.lor_comm, lor_bytes by (apply at_byte; [exact RB|lia]).
      change (Z.land (at_ sector (bps - 3)) 3) with (Z.land (at_ sector (bps - 3)) (Z.ones 2)). rewrite Z.land_ones by lia. reflexivity.
    - rewrite W. apply Forall_app. split; [exact RB|]. rewrite Forall_forall in *. intros x Hx. unfold bytes in B. rewrite Forall_forall in B. apply B. rewrite <- (firstn_skipn (Z.to_nat (0 + len sector))). apply in_or_app. now right.
    - intros k Hk. rewrite W. apply slice_app_l; lia.
  Qed.

  Lemma chk_ok v : int_min <= v <= int_max -> chk v = Ok v.
  Proof. intros H. unfold chk, is_int. replace ((int_min <=? v) && (v <=? int_max)) with true by lia. reflexivity. Qed.

  Lemma step_copy offset length total buffer s n : len (st_sector s) = 256 -> 0 < length -> used bps (st_type s) (at_ (st_sector s) (bps - 1)) = Some n -> n <= 255 ->
    0 <= st_offset s < n -> 0 <= total -> total + length <= int_max -> 0 <= st_position s -> st_position s + Z.min length (n - st_offset s) <= int_max -> room buffer (offset + total) length ->
    let got := Z.min length (n - st_offset s) in
    read_step disk offset (length, total, buffer, s) =
      Ok (inl (length - got, total + got, put_buffer buffer (offset + total) (slice (st_sector s) (st_offset s) (st_offset s + got)),
               mkStream (st_first s) (st_type s) (st_position s + got) (st_next s) (st_sector s) (st_offset s + got))).
  Proof.
    intros L H U N O T TM P PM R got. rewrite (step_used _ _ _ _ _ n) by assumption. replace (n - st_offset s <=? 0) with false by lia. cbv zeta. fold got in PM. fold got.
    assert (G : 0 < got <= n - st_offset s /\ got <= length) by (unfold got; lia). unfold get_range. replace (st_offset s + got - st_offset s <? 0) with false by lia.
    replace ((st_offset s <? 0) || (len (st_sector s) <? st_offset s + got)) with false by lia. cbn [bind]. unfold int_max in *.
    assert (LS : len (slice (st_sector s) (st_offset s) (st_offset s + got)) = got) by (rewrite len_slice; lia).
    destruct buffer as [b|]; cbn [room put_buffer] in *; unfold int_max in *.
    - rewrite (chk_ok (offset + total)) by (unfold int_min, int_max; lia). cbn [bind]. rewrite copy_into_ok by lia. cbn [bind]. rewrite !chk_ok by (unfold int_min, int_max; lia). reflexivity.
    - cbn [bind]. rewrite !chk_ok by (unfold int_min, int_max; lia). reflexivity.
  Qed.

  Lemma put_put buffer i l k : room buffer i (len l + len k) -> put_buffer (put_buffer buffer i l) (i + len l) k = put_buffer buffer i (l ++ k).
  Proof. destruct buffer as [b|]; [|reflexivity]. cbn [room put_buffer]. intros H. rewrite splice_splice by lia. reflexivity. Qed.
  Lemma put_nil buffer i n : room buffer i n -> put_buffer buffer i [] = buffer.
  Proof. destruct buffer as [b|]; [|reflexivity]. cbn [room put_buffer]. intros H. now rewrite splice_nil by lia. Qed.
  Lemma room_put buffer i n l : len l <= n -> room buffer i n -> room (put_buffer buffer i l) (i + len l) (n - len l).
  Proof. destruct buffer as [b|]; [|auto]. cbn [room put_buffer]. pose proof (len_nonneg l) as N. intros Hl H. rewrite len_splice by lia. lia. Qed.

  Lemma firstn_app_ge (l k : list Z) m : len l <= m -> firstn (Z.to_nat m) (l ++ k) = l ++ firstn (Z.to_nat (m - len l)) k.
  Proof. intros H. rewrite firstn_app. unfold len in *. rewrite firstn_all2 by lia. f_equal. f_equal. lia. Qed.
  Lemma skipn_app_ge (l k : list Z) m : len l <= m -> skipn (Z.to_nat m) (l ++ k) = skipn (Z.to_nat (m - len l)) k.
  Proof. intros H. rewrite skipn_app. unfold len in *. rewrite skipn_all2 by lia. cbn [app]. f_equal. lia. Qed.

  (* putting two stages together *)
  Lemma read_more e length rest offset total buffer s r l s1 : len l <= length -> room buffer (offset + total) length -> (e = Unknown -> length <= len (l ++ rest)) ->
    st_first s1 = st_first s -> st_type s1 = st_type s -> st_position s1 = st_position s + len l ->
    read_done e (length - len l) rest offset (total + len l) (put_buffer buffer (offset + total) l) s1 r -> read_done e length (l ++ rest) offset total buffer s r.
  Proof.
    intros Hl HR HU F T P D. unfold read_done in *. rewrite len_app.
    replace (length <=? len l + len rest) with (length - len l <=? len rest) by (destruct (Z.leb_spec (length - len l) (len rest)), (Z.leb_spec length (len l + len rest)); lia).
    destruct ((length - len l <=? len rest) || _); [|exact D]. cbv zeta in *. rewrite firstn_app_ge, skipn_app_ge by exact Hl. rewrite len_app.
    destruct D as (D1 & D2 & D3 & D4 & D5 & D6). rewrite D1, D2, D4, D5, D6, F, T, P. replace (offset + (total + len l)) with (offset + total + len l) by lia.
    assert (len (firstn (Z.to_nat (length - len l)) rest) <= length - len l) by (unfold len in *; rewrite firstn_length; lia).
    rewrite put_put by (destruct buffer as [b|]; [|exact Logic.I]; cbn [room] in *; lia). rewrite !Z.add_assoc. auto 10.
  Qed.

  Lemma read_nothing e data offset total buffer s n : stream_at e s data -> room buffer (offset + total) n -> read_done e 0 data offset total buffer s (total, buffer, s).
  Proof.
    intros S R. unfold read_done. pose proof (len_nonneg data). replace (0 <=? len data) with true by lia. cbn [orb fst snd]. cbv zeta. change (Z.to_nat 0) with 0%nat. cbn [firstn skipn].
    change (len (@nil Z)) with 0. rewrite !Z.add_0_r. rewrite (put_nil buffer _ n) by exact R. auto 10.
  Qed.

  Lemma ok_from_drained t e next rest : chain disk t e next rest -> read_ok t e next rest true -> read_ok t e next rest false.
  Proof.
    intros C A s n length total buffer offset EN ET L B O U _ data HU HL HT HTM HP HPM R. pose proof (last_byte s L B) as LB.
    destruct (used_range _ _ _ _ LB bps_cases U) as [N255 Nb].
    destruct (Z.eq_dec length 0) as [-> |NZ].
    { exists (total, buffer, s). split; [apply loop_leaves; apply step_nothing|]. apply read_nothing with 0; [|exact R].
      split; [exact L|]. split; [exact B|]. split; [exact O|]. exists n, rest. rewrite EN, ET in *. auto. }
    destruct (Z_le_gt_dec n (st_offset s)) as [D|D]; [apply (A s n); auto; lia|].
    assert (LS : len (slice (st_sector s) (st_offset s) n) = n - st_offset s) by (rewrite len_slice; lia).
    pose proof (len_nonneg rest) as LR. assert (LD : len data = n - st_offset s + len rest) by (unfold data; rewrite len_app; lia).
    pose proof (step_copy offset length total buffer s n L ltac:(lia) U ltac:(lia) ltac:(lia) HT HTM HP ltac:(lia) R) as ST. cbv zeta in ST.
    destruct (Z_le_gt_dec length (n - st_offset s)) as [C1|C1].
    - rewrite Z.min_l in ST by lia. rewrite Z.sub_diag in ST.
      eexists. split; [eapply loop_returns; [exact ST|]; apply loop_leaves; apply step_nothing|].
      unfold read_done. replace (length <=? len data) with true by lia. cbn [orb fst snd]. cbv zeta.
      assert (SP : data = slice (st_sector s) (st_offset s) (st_offset s + length) ++ slice (st_sector s) (st_offset s + length) n ++ rest).
      { unfold data. rewrite app_assoc. rewrite slice_cat by lia. reflexivity. }
      assert (LQ : len (slice (st_sector s) (st_offset s) (st_offset s + length)) = length) by (rewrite len_slice; lia).
      rewrite SP. rewrite firstn_app_ge, skipn_app_ge by lia. rewrite LQ, Z.sub_diag. change (Z.to_nat 0) with 0%nat. cbn [firstn skipn]. rewrite app_nil_r, LQ.
      split; [reflexivity|]. split; [reflexivity|]. split; [|auto].
      split; [exact L|]. split; [exact B|]. split; [cbn [st_offset]; lia|]. exists n, rest. cbn [st_type st_sector st_next st_offset]. rewrite ET in *. subst next. auto.
    - rewrite Z.min_r in ST by lia. replace (st_offset s + (n - st_offset s)) with n in ST by lia. assert (GP : 0 < n - st_offset s) by lia. set (got := n - st_offset s) in *. clearbody got.
      set (s1 := mkStream (st_first s) (st_type s) (st_position s + got) (st_next s) (st_sector s) n) in *.
      destruct (A s1 n (length - got) (total + got) (put_buffer buffer (offset + total) (slice (st_sector s) (st_offset s) n)) offset) as (r & RR & RD); auto; cbn [s1 st_offset st_position st_sector] in *; try lia.
      + rewrite slice_empty by lia. cbn [app]. intros E. specialize (HU E). lia.
      + rewrite slice_empty by lia. cbn [app]. lia.
      + rewrite Z.add_assoc. rewrite <- LS at 1 2. apply room_put; [lia|exact R].
      + exists r. split; [eapply loop_returns; [exact ST|exact RR]|]. rewrite slice_empty in RD by lia. cbn [app] in RD. unfold data.
        apply read_more with s1; auto; try lia; try (unfold s1; cbn; lia). rewrite LS. exact RD.
  Qed.

  Lemma read_drained t e next rest : chain disk t e next rest -> read_ok t e next rest true.
  Proof.
    induction 1 as [next RS|next sector RS BAD|next|e next sector n' rest RS US CH IH];
      intros s n length total buffer offset EN ET L B O U DR data HU HL HT HTM HP HPM R; destruct (DR eq_refl) as [Dn Dl];
      assert (ED : slice (st_sector s) (st_offset s) n = []) by (apply slice_empty; lia); unfold data in *; rewrite ED in *; cbn [app] in *.
    - exists (total, buffer, s). split.
      + apply loop_leaves. rewrite (step_used _ _ _ _ _ n) by assumption. replace (n - st_offset s <=? 0) with true by lia. rewrite EN. change (read_sector disk next bps) with (read_sector disk next (at_bps disk)). rewrite RS. reflexivity.
      + unfold read_done. rewrite orb_true_r. cbv zeta. rewrite firstn_nil, skipn_nil. cbn [fst snd]. change (len (@nil Z)) with 0. rewrite !Z.add_0_r.
        split; [reflexivity|]. rewrite (put_nil buffer _ length) by exact R. split; [reflexivity|]. split; [|auto].
        split; [exact L|]. split; [exact B|]. split; [exact O|]. exists n, []. split; [exact U|]. split; [|now rewrite ED]. rewrite EN. now constructor.
    - rewrite <- EN in RS. destruct (step_load offset length total buffer s n sector L B Dl U Dn RS) as (whole & ST & LW & BW & LAST & _).
      eexists. split.
      + eapply loop_returns; [exact ST|]. apply loop_leaves. apply step_bad; cbn [st_sector st_type]; [exact LW|exact Dl|]. rewrite LAST, ET. exact BAD.
      + unfold read_done. change (len (@nil Z)) with 0. replace (length <=? 0) with false by lia. reflexivity.
    - specialize (HU eq_refl). change (len (@nil Z)) with 0 in HU. lia.
    - rewrite <- EN in RS. destruct (step_load offset length total buffer s n sector L B Dl U Dn RS) as (whole & ST & LW & BW & LAST & SL).
      destruct (read_sector_ok disk _ bps _ I ltac:(pose proof bps_cases; lia) RS) as [RL RB].
      assert (BL : byte (at_ sector (bps - 1))) by (apply at_byte; [exact RB|]; pose proof bps_cases; lia).
      destruct (used_range _ _ _ _ BL bps_cases US) as [_ Nb].
      pose proof (ok_from_drained _ _ _ _ CH IH) as F.
      set (s1 := mkStream (st_first s) (st_type s) (st_position s) (link bps (st_type s) sector) whole 0) in *.
      destruct (F s1 n' length total buffer offset) as (r & RR & RD); cbn [s1 st_next st_type st_sector st_offset st_position]; auto; try lia; try (rewrite ET; reflexivity); try (rewrite LAST, ET; exact US); try (rewrite SL by lia; assumption).
      exists r. split; [eapply loop_returns; [exact ST|exact RR]|]. cbn [s1 st_sector st_offset] in RD. rewrite SL in RD by lia. exact RD.
  Qed.

  Lemma read_spec e s data length buffer offset : stream_at e s data -> (e = Unknown -> length <= len data) -> 0 <= length <= int_max -> 0 <= st_position s ->
    st_position s + Z.min length (len data) <= int_max -> room buffer offset length ->
    exists r, returns (fun fuel => stream_read fuel disk buffer offset length s) r /\ read_done e length data offset 0 buffer s r.
  Proof.
    intros (L & B & O & n & rest & U & CH & ->) HU HL HP HPM R. pose proof (ok_from_drained _ _ _ _ CH (read_drained _ _ _ _ CH)) as F.
    apply (F s n length 0 buffer offset); auto; try lia; try discriminate. now rewrite Z.add_0_r.
  Qed.
End Disk.

(* ---- the size of a file ---- *)
Inductive path (disk : aatr) (t : Z) : Z -> list Z -> Prop :=
| path_end s : read_sector disk s (at_bps disk) = None -> path disk t s []
| path_sector s sector ss : read_sector disk s (at_bps disk) = Some sector -> path disk t (link (at_bps disk) t sector) ss -> path disk t s (s :: ss).

Lemma path_unique disk t s a : path disk t s a -> forall b, path disk t s b -> a = b.
Proof.
  induction 1 as [s R|s sector ss R P IH]; intros b H; inversion H as [s' R'|s' sector' ss' R' P']; subst; try congruence.
  assert (sector' = sector) by congruence. subst. f_equal. now apply IH.
Qed.
Lemma path_suffix disk t s a : path disk t s a -> forall x, In x a -> exists post, path disk t x (x :: post) /\ (length (x :: post) <= length a)%nat.
Proof.
  induction 1 as [s R|s sector ss R P IH]; intros x H; [destruct H|]. destruct H as [<- |H].
  - exists ss. split; [econstructor; eassumption|reflexivity].
  - destruct (IH x H) as (post & Q & L). exists post. split; [exact Q|]. cbn [length] in *. lia.
Qed.
Lemma path_nodup disk t s a : path disk t s a -> NoDup a.
Proof.
  induction 1 as [s R|s sector ss R P IH]; constructor; [|exact IH]. intros H. destruct (path_suffix _ _ _ _ P s H) as (post & Q & L).
  assert (E : s :: ss = s :: post) by (eapply path_unique; [econstructor; eassumption|exact Q]). rewrite <- E in L. cbn [length] in L. lia.
Qed.

Lemma link_range disk t s sector : image_ok disk -> read_sector disk s (at_bps disk) = Some sector -> 0 <= link (at_bps disk) t sector < 65536.
Proof.
  intros I R. pose proof (proj2 I) as P. destruct (read_sector_ok disk _ (at_bps disk) _ I ltac:(lia) R) as [L B]. unfold link.
  assert (B1 : byte (at_ sector (at_bps disk - 2))) by (apply at_byte; [exact B|lia]). assert (B2 : byte (at_ sector (at_bps disk - 3))) by (apply at_byte; [exact B|lia]).
  unfold byte in *. destruct (t =? 6); [lia|]. pose proof (Z.mod_pos_bound (at_ sector (at_bps disk - 3)) 4 ltac:(lia)). lia.
Qed.

Lemma chain_path disk t e s data : image_ok disk -> chain disk t e s data -> e = Complete -> 0 <= s < 65536 ->
  exists ss, path disk t s ss /\ len data <= 256 * Z.of_nat (length ss) /\ Forall (fun x => 0 <= x < 65536) ss.
Proof.
  intros I. induction 1 as [s R|s sector R U|s|e s sector n rest R U C IH]; intros E Hs; try discriminate.
  - exists []. split; [now constructor|]. split; [cbn; lia|constructor].
  - destruct (IH E) as (ss & P & L & F); [eapply link_range; eassumption|]. exists (s :: ss). split; [econstructor; eassumption|].
    split; [|constructor; assumption]. pose proof (proj2 I) as PB. destruct (read_sector_ok disk _ (at_bps disk) _ I ltac:(lia) R) as [SL SB].
    destruct (used_range _ _ _ _ (at_byte sector (at_bps disk - 1) SB ltac:(lia)) PB U) as [N N2]. rewrite len_app. rewrite len_slice by lia. cbn [length]. lia.
Qed.

Lemma file_size disk t s data : image_ok disk -> chain disk t Complete s data -> 0 <= s < 65536 -> len data <= 16777216.
Proof.
  intros I C Hs. destruct (chain_path _ _ _ _ _ I C eq_refl Hs) as (ss & P & L & F). pose proof (path_nodup _ _ _ _ P) as ND.
  assert (IN : incl ss (map Z.of_nat (seq 0 (Z.to_nat 65536)))).
  { intros x Hx. rewrite Forall_forall in F. specialize (F x Hx). apply in_map_iff. exists (Z.to_nat x). split; [lia|]. apply in_seq. lia. }
  pose proof (NoDup_incl_length ND IN) as LE. rewrite map_length, seq_length in LE. lia.
Qed.

(* ---- a whole file ---- *)
Definition file_at (disk : aatr) (t first : Z) (data : list Z) (pos : Z) (s : stream) : Prop :=
  stream_at disk Complete s (skipn (Z.to_nat pos) data) /\ st_first s = first /\ st_type s = t /\ st_position s = pos /\ 0 <= pos <= len data.

Section File.
  Variable disk : aatr.
  Hypothesis I : image_ok disk.
  Variables (t first : Z) (data : list Z).
  Hypothesis C : chain disk t Complete first data.
  Hypothesis F : 0 <= first < 65536.

  Lemma rewound s : len (st_sector s) = 256 -> bytes (st_sector s) -> used (at_bps disk) t (at_ (st_sector s) (at_bps disk - 1)) <> None -> st_first s = first -> st_type s = t ->
    file_at disk t first data 0 (rewind_stream s).
  Proof.
    intros L B U EF ET. split; [|split; [exact EF|split; [exact ET|split; [reflexivity|pose proof (len_nonneg data); lia]]]].
    split; [exact L|]. split; [exact B|]. split; [cbn; lia|]. cbn [rewind_stream st_sector st_type st_next st_offset].
    destruct (used (at_bps disk) t (at_ (st_sector s) (at_bps disk - 1))) as [n|] eqn:E; [|contradiction]. exists n, data. rewrite EF, ET. split; [exact E|]. split; [exact C|].
    pose proof (proj2 I) as P. destruct (used_range _ _ _ _ (at_byte (st_sector s) (at_bps disk - 1) B ltac:(lia)) P E) as [N _].
    rewrite slice_empty by lia. reflexivity.
  Qed.

  Lemma file_read pos s length buffer offset : file_at disk t first data pos s -> 0 <= length <= int_max -> room buffer offset length ->
    exists s', returns (fun fuel => stream_read fuel disk buffer offset length s) (Z.min length (len data - pos), put_buffer buffer offset (firstn (Z.to_nat length) (skipn (Z.to_nat pos) data)), s')
      /\ file_at disk t first data (pos + Z.min length (len data - pos)) s'.
  Proof.
    intros (SA & EF & ET & EP & HP) HL R. pose proof (file_size _ _ _ _ I C F) as SZ.
    assert (LK : len (skipn (Z.to_nat pos) data) = len data - pos) by (unfold len in *; rewrite skipn_length; lia).
    destruct (read_spec disk I Complete s _ length buffer offset SA) as ([[n b] s'] & RR & RD); auto; try discriminate; try lia; [unfold int_max in *; lia|].
    unfold read_done in RD. rewrite orb_true_r in RD. cbv zeta in RD. cbn [fst snd] in RD. destruct RD as (D1 & D2 & D3 & D4 & D5 & D6).
    assert (LF : len (firstn (Z.to_nat length) (skipn (Z.to_nat pos) data)) = Z.min length (len data - pos)) by (unfold len in *; rewrite firstn_length; lia).
    rewrite LF in *. exists s'. rewrite Z.add_0_l in D1. rewrite Z.add_0_r in D2. rewrite <- D1, <- D2. split; [exact RR|]. rewrite D1.
    split; [|split; [congruence|split; [congruence|split; [congruence|lia]]]].
    destruct (Z_le_gt_dec length (len data - pos)).
    - rewrite Z.min_l by lia. rewrite skipn_skipn_plus in D3. replace (Z.to_nat (pos + length)) with (Z.to_nat pos + Z.to_nat length)%nat by lia. exact D3.
    - rewrite Z.min_r by lia. rewrite skipn_all2 by (unfold len in *; lia). rewrite skipn_all2 in D3 by (unfold len in *; lia). exact D3.
  Qed.

  Lemma returns_bind {A B} (call : nat -> outcome A) (k : nat -> A -> outcome B) a b : returns call a -> returns (fun fuel => k fuel a) b -> returns (fun fuel => bind (call fuel) (k fuel)) b.
  Proof.
    intros (n & H) (m & K). exists (n + m)%nat. intros fuel L. rewrite H by lia. cbn [bind]. apply K. lia.
  Qed.
  Lemma returns_ok {A} (a : A) : returns (fun _ => Ok a) a. Proof. exists 0%nat. reflexivity. Qed.

  Lemma file_again pos s : file_at disk t first data pos s -> file_at disk t first data 0 (rewind_stream s).
  Proof.
    intros ((L & B & _ & n & rest & U & _) & EF & ET & _). apply rewound; auto. rewrite ET in U. congruence.
  Qed.

  Lemma file_seek pos s p : file_at disk t first data pos s -> int_min + pos <= p <= int_max ->
    exists s', returns (fun fuel => set_position fuel disk p s) ((0 <=? p) && (p <=? len data), s') /\ file_at disk t first data (Z.max 0 (Z.min p (len data))) s'.
  Proof.
    intros FA HP. pose proof (file_size _ _ _ _ I C F) as SZ. pose proof FA as (_ & _ & _ & EP & Hpos). unfold set_position. rewrite EP.
    assert (CK : chk (p - pos) = Ok (p - pos)).
    { unfold chk, is_int. replace (_ && _) with true; [reflexivity|]. symmetry. apply andb_true_intro. unfold int_min, int_max in *. lia. }
    rewrite CK. cbn [bind]. destruct (Z.leb_spec 0 (p - pos)) as [D|D].
    - destruct (file_read pos s (p - pos) None 0 FA ltac:(unfold int_max in *; lia) Logic.I) as (s' & RR & FA').
      exists s'. split.
      + eapply (returns_bind _ (fun fuel r => let '(n, _, s) := r in Ok (n =? p - pos, s)) _ _ RR). cbn beta iota.
        replace ((0 <=? p) && (p <=? len data)) with (Z.min (p - pos) (len data - pos) =? p - pos) by lia. apply returns_ok.
      + replace (Z.max 0 (Z.min p (len data))) with (pos + Z.min (p - pos) (len data - pos)) by lia. exact FA'.
    - apply file_again in FA. destruct (Z_lt_ge_dec p 0) as [N|N].
      + exists (rewind_stream s). split.
        * eapply (returns_bind _ (fun fuel r => let '(n, _, s) := r in Ok (n =? p, s)) (0, None, rewind_stream s)).
          -- exists 0%nat. intros fuel _. unfold stream_read. destruct fuel; cbn [loop]; unfold read_step; replace (p <=? 0) with true by lia; reflexivity.
          -- cbn beta iota. replace ((0 <=? p) && (p <=? len data)) with (0 =? p) by lia. apply returns_ok.
        * replace (Z.max 0 (Z.min p (len data))) with 0 by lia. exact FA.
      + destruct (file_read 0 _ p None 0 FA ltac:(unfold int_max in *; lia) Logic.I) as (s' & RR & FA').
        exists s'. split.
        * eapply (returns_bind _ (fun fuel r => let '(n, _, s) := r in Ok (n =? p, s)) _ _ RR). cbn beta iota.
          replace ((0 <=? p) && (p <=? len data)) with (Z.min p (len data - 0) =? p) by lia. apply returns_ok.
        * replace (Z.max 0 (Z.min p (len data))) with (0 + Z.min p (len data - 0)) by lia. exact FA'.
  Qed.

  Lemma file_length pos s : file_at disk t first data pos s -> exists s', returns (fun fuel => get_length fuel disk s) (len data, s') /\ file_at disk t first data pos s'.
  Proof.
    intros FA. pose proof (file_size _ _ _ _ I C F) as SZ. pose proof FA as (_ & _ & _ & EP & Hpos). unfold get_length. rewrite EP. cbv zeta.
    destruct (file_read pos s (0x7fffffff - pos) None 0 FA ltac:(unfold int_max in *; lia) Logic.I) as (s' & RR & FA').
    rewrite Z.min_r in RR, FA' by lia. destruct (file_seek _ s' pos FA' ltac:(unfold int_min, int_max; lia)) as (s2 & RS & FS).
    rewrite Z.min_l, Z.max_r in FS by lia. exists s2. split; [|exact FS].
    eapply (returns_bind _ (fun fuel r => let '(n, _, s) := r in length <- chk (pos + n) ;; '(_, s) <- set_position fuel disk pos s ;; Ok (length, s)) _ _ RR). cbn beta iota.
    replace (pos + (len data - pos)) with (len data) by lia.
    assert (CK : chk (len data) = Ok (len data)).
    { unfold chk, is_int. replace (_ && _) with true; [reflexivity|]. symmetry. apply andb_true_intro. unfold int_min, int_max in *. lia. }
    rewrite CK. cbn [bind]. eapply (returns_bind _ (fun fuel r => let '(_, s) := r in Ok (len data, s)) _ _ RS). cbn beta iota. apply returns_ok.
  Qed.

  Lemma file_operations ops : Forall reasonable ops -> forall pos s, file_at disk t first data pos s -> performs disk s ops (answers data pos ops).
  Proof.
    pose proof (file_size _ _ _ _ I C F) as SZ.
    induction 1 as [|op ops Hop FL IH]; intros pos s FA; [constructor|]. pose proof FA as (_ & _ & _ & EP & Hpos). destruct op as [n|p| |]; cbn [answers reasonable] in *.
    - assert (LB : len (repeat 0 (Z.to_nat n)) = n) by (unfold len; rewrite repeat_length; lia).
      destruct (file_read pos s n (Some (repeat 0 (Z.to_nat n))) 0 FA Hop) as (s1 & RR & FA1); [cbn [room]; lia|].
      assert (LK : len (skipn (Z.to_nat pos) data) = len data - pos) by (unfold len in *; rewrite skipn_length; lia).
      assert (LL : len (slice data pos (Z.min (pos + n) (len data))) = Z.min n (len data - pos)) by (rewrite len_slice; lia).
      set (now := firstn (Z.to_nat n) (skipn (Z.to_nat pos) data)) in *.
      assert (EN : slice data pos (Z.min (pos + n) (len data)) = now).
      { unfold now, slice. destruct (Z_le_gt_dec n (len data - pos)).
        - f_equal. lia.
        - rewrite !firstn_all2; [reflexivity| |]; unfold len in *; lia. }
      assert (LN : len now = Z.min n (len data - pos)) by (rewrite <- EN; exact LL).
      assert (EB : slice (splice (repeat 0 (Z.to_nat n)) 0 now) 0 (Z.min n (len data - pos)) = now).
      { rewrite <- LN. apply (slice_splice (repeat 0 (Z.to_nat n)) 0 now); lia. }
      rewrite LL, EN. rewrite <- EB. eapply performs_read; [exact RR|lia|]. apply IH. exact FA1.
    - destruct (file_seek pos s p FA) as (s1 & RR & FA1); [lia|]. eapply performs_seek; [exact RR|]. apply IH. exact FA1.
    - rewrite <- EP at 1. constructor. apply IH. exact FA.
    - destruct (file_length pos s FA) as (s1 & RR & FA1). eapply performs_length; [exact RR|]. apply IH. exact FA1.
  Qed.
End File.

Lemma fresh_used disk t s : image_ok disk -> fresh_enough disk s -> used (at_bps disk) t (at_ (st_sector s) (at_bps disk - 1)) <> None.
Proof.
  intros [_ P] (L & B & H). unfold used. destruct (t =? 0); [discriminate|].
  destruct (Z.leb_spec (at_ (st_sector s) (at_bps disk - 1)) (at_bps disk)) as [Q|Q]; [discriminate|]. destruct P as [P|P]; rewrite P in *.
  - specialize (H eq_refl). change (128 - 1) with 127 in Q. lia.
  - pose proof (at_byte (st_sector s) (256 - 1) B ltac:(lia)). unfold byte in *. lia.
Qed.

(* the states that Open leads to *)
Lemma opened_stream disk d e s data : image_ok disk -> points d e -> 0 <= e_first e < 65536 -> chain disk (Z.land (e_type e) 6) Complete (e_first e) data -> fresh_enough disk s ->
  exists s', stream_open d s = Ok s' /\ file_at disk (Z.land (e_type e) 6) (e_first e) data 0 s'.
Proof.
  intros I [T P] F C FR. unfold stream_open. rewrite P, T. cbn [bind]. eexists. split; [reflexivity|].
  pose proof (fresh_used disk (Z.land (e_type e) 6) s I FR) as U. destruct FR as (L & B & _). apply rewound; auto.
Qed.

(* every entry starts at a 16-bit sector number *)
Lemma entries_first disk f n : image_ok disk -> forall k, Forall (fun e => 0 <= e_first e < 65536) (entries_from disk f n k).
Proof.
  intros I. induction n as [|n IH]; intros k; cbn [entries_from]; [constructor|]. destruct (directory_record disk f k) as [r|] eqn:R; [|constructor]. cbv zeta.
  destruct (_ =? 0); [constructor|]. destruct (if is_kind _ _ then _ else _) as [name|]; [|apply IH]. constructor; [|apply IH]. cbn [e_first].
  unfold directory_record in R. destruct (read_sector disk (f + k / 8) 128) as [sector|] eqn:S; [|discriminate].
  assert (ER : r = slice sector (16 * (k mod 8)) (16 * (k mod 8) + 16)) by congruence. subst r. clear R.
  destruct (read_sector_ok disk _ 128 _ I ltac:(lia) S) as [L B]. pose proof (Z.mod_pos_bound k 8 ltac:(lia)) as M. set (m := k mod 8) in *. clearbody m.
  rewrite !at_slice by lia. pose proof (at_byte sector (16 * m + 3) B ltac:(lia)). pose proof (at_byte sector (16 * m + 4) B ltac:(lia)). unfold byte in *. lia.
Qed.
Lemma all_first disk f : image_ok disk -> Forall (fun e => 0 <= e_first e < 65536) (entries disk f).
Proof. intros I. exact (entries_first disk f 64 I 0). Qed.
Local Opaque entries.
Lemma resolve_first disk e : image_ok disk -> forall rest part f, resolve disk part rest (entries disk f) = Some e -> 0 <= e_first e < 65536.
Proof.
  intros I. assert (N : forall name f e, named name (entries disk f) = Some e -> 0 <= e_first e < 65536).
  { intros name f x H. apply find_some in H. pose proof (all_first disk f I) as A. rewrite Forall_forall in A. apply A. apply H. }
  induction rest as [|c rest IH]; intros part f H; cbn [resolve] in H; [now apply N in H|]. destruct (c =? 47); [|now apply IH in H].
  destruct (named part (entries disk f)) as [x|]; [|discriminate]. destruct (is_directory x); [|discriminate]. now apply IH in H.
Qed.
Lemma listed_first disk : image_ok disk -> forall levels prefix f path e, In (path, e) (listing disk levels prefix (entries disk f)) -> 0 <= e_first e < 65536.
Proof.
  intros I. induction levels as [|levels IH]; intros prefix f path e H; cbn [listing] in H; apply in_flat_map in H; destruct H as (x & X1 & X2);
    pose proof (all_first disk f I) as A; rewrite Forall_forall in A; specialize (A x X1); destruct (is_directory x);
    try (destruct X2 as [X2|[]]; assert (e = x) by congruence; subst; exact A); [destruct X2|]. now apply IH in X2.
Qed.

Lemma file_first disk path e : image_ok disk -> In (path, e) (all_files disk) -> 0 <= e_first e < 65536.
Proof. intros I. exact (listed_first disk I 19 [] root path e). Qed.

(* ---- from the image to the data ---- *)
Lemma file_contents disk e d s data ops : image_ok disk -> points d e -> 0 <= e_first e < 65536 -> chain disk (Z.land (e_type e) 6) Complete (e_first e) data -> fresh_enough disk s ->
  Forall reasonable ops -> exists s', stream_open d s = Ok s' /\ performs disk s' ops (answers data 0 ops).
Proof.
  intros I P F C FR R. destruct (opened_stream disk d e s data I P F C FR) as (s' & E & FA). exists s'. split; [exact E|].
  now apply (file_operations disk I (Z.land (e_type e) 6) (e_first e) data C F).
Qed.

Lemma corrupt_file disk e d s data n : image_ok disk -> points d e -> 0 <= e_first e < 65536 -> chain disk (Z.land (e_type e) 6) Corrupt (e_first e) data -> fresh_enough disk s ->
  len data < n <= int_max -> len data <= int_max ->
  exists s' r, stream_open d s = Ok s' /\ returns (fun fuel => stream_read fuel disk (Some (repeat 0 (Z.to_nat n))) 0 n s') r /\ fst (fst r) = -1.
Proof.
  intros I [T P] F C FR Hn Hd. unfold stream_open. rewrite P, T. cbn [bind].
  pose proof (fresh_used disk (Z.land (e_type e) 6) s I FR) as U. destruct FR as (L & B & _). eexists.
  set (s' := rewind_stream _). assert (SA : stream_at disk Corrupt s' data).
  { split; [exact L|]. split; [exact B|]. split; [cbn; lia|]. unfold s', rewind_stream. cbn [st_sector st_type st_next st_offset st_first].
    destruct (used (at_bps disk) (Z.land (e_type e) 6) (at_ (st_sector s) (at_bps disk - 1))) as [k|] eqn:E; [|contradiction]. exists k, data. split; [reflexivity|]. split; [exact C|].
    pose proof (proj2 I) as PB. destruct (used_range _ _ _ _ (at_byte (st_sector s) (at_bps disk - 1) B ltac:(lia)) PB E) as [N _]. rewrite slice_empty by lia. reflexivity. }
  pose proof (len_nonneg data) as LD. assert (LB : len (repeat 0 (Z.to_nat n)) = n) by (unfold len; rewrite repeat_length; lia).
  destruct (read_spec disk I Corrupt s' data n (Some (repeat 0 (Z.to_nat n))) 0 SA) as (r & RR & RD); try discriminate; cbn [room st_position s' rewind_stream]; try lia.
  exists r. split; [reflexivity|]. split; [exact RR|]. unfold read_done in RD. replace (n <=? len data) with false in RD by lia. exact RD.
Qed.
