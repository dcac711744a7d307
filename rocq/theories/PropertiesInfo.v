(* Property theorems about ASAPInfo: durations, texts, dates, setters, file names.
   Statements only use the API-level model functions and InfoSpec.v. *)
From Verif Require Import Base InfoModel InfoSpec WriterModel DurationProofs InfoProofs.

(* ---- C01 ---- *)
Theorem C01_duration_round_trip :
  forall v, 0 <= v < 6000000 ->
    len (duration_to_string v) <= 9 /\ parse_duration (duration_to_string v) = Ok v.
Proof. exact duration_round_trip. Qed.
Print Assumptions C01_duration_round_trip.

Theorem C01_duration_no_text :
  forall v, ~ 0 <= v < 6000000 -> duration_to_string v = [].
Proof. exact duration_no_text. Qed.
Print Assumptions C01_duration_no_text.

Example C01_example :
  0 <= 754321 < 6000000 /\ duration_to_string 754321 = [49; 50; 58; 51; 52; 46; 51; 50; 49]. (* "12:34.321" *)
Proof. split; [lia|reflexivity]. Qed.

(* ---- C02 ---- *)
Theorem C02_parse_duration_exact :
  forall s v, parse_duration s = Ok v <-> duration_syntax s v.
Proof. exact parse_duration_spec. Qed.
Print Assumptions C02_parse_duration_exact.

Theorem C02_parse_duration_safe :
  forall s, (exists v, parse_duration s = Ok v /\ 0 <= v <= 5999999) \/ parse_duration s = Fail.
Proof. exact parse_duration_total. Qed.
Print Assumptions C02_parse_duration_safe.

(* the reading of the grammar without trailing text is refuted: text after the third digit is ignored *)
Theorem C02_no_trailing_text_refuted : (* "0.123xy" parses as "0.123" *)
  exists s, parse_duration s = Ok 123 /\ parse_duration (s ++ [120; 121]) = Ok 123.
Proof. exact trailing_text_accepted. Qed.
Print Assumptions C02_no_trailing_text_refuted.

Example C02_example : duration_syntax [49; 58; 50; 51; 46; 52] 83400. (* "1:23.4" *)
Proof.
  exists [49; 58; 50; 51], 83, [46; 52], 400. split; [reflexivity|].
  split; [apply (WM1 1 2 3); unfold digit; lia|].
  split; [apply (F1 4); unfold digit; lia|reflexivity].
Qed.

(* ---- C04 ---- *)
Theorem C04_set_author :
  forall self v,
    (meta_text v /\ api_set_author self v =
       (true, mkInfo (i_filename self) v (i_title self) (i_date self) (i_channels self) (i_songs self)
          (i_defsong self) (i_durations self) (i_loops self) (i_ntsc self) (i_type self) (i_fastplay self)
          (i_music self) (i_init self) (i_player self) (i_covox self) (i_headerLen self) (i_songPos self)))
    \/ (~ meta_text v /\ api_set_author self v = (false, self)).
Proof. exact set_author_spec. Qed.
Print Assumptions C04_set_author.

Theorem C04_set_title :
  forall self v,
    (meta_text v /\ api_set_title self v =
       (true, mkInfo (i_filename self) (i_author self) v (i_date self) (i_channels self) (i_songs self)
          (i_defsong self) (i_durations self) (i_loops self) (i_ntsc self) (i_type self) (i_fastplay self)
          (i_music self) (i_init self) (i_player self) (i_covox self) (i_headerLen self) (i_songPos self)))
    \/ (~ meta_text v /\ api_set_title self v = (false, self)).
Proof. exact set_title_spec. Qed.
Print Assumptions C04_set_title.

Theorem C04_set_date :
  forall self v,
    (meta_text v /\ api_set_date self v =
       (true, mkInfo (i_filename self) (i_author self) (i_title self) v (i_channels self) (i_songs self)
          (i_defsong self) (i_durations self) (i_loops self) (i_ntsc self) (i_type self) (i_fastplay self)
          (i_music self) (i_init self) (i_player self) (i_covox self) (i_headerLen self) (i_songPos self)))
    \/ (~ meta_text v /\ api_set_date self v = (false, self)).
Proof. exact set_date_spec. Qed.
Print Assumptions C04_set_date.

Example C04_example : meta_text [74; 111; 101; 32; 34; 90; 34] /\ ~ meta_text [96]. (* Joe "Z" *)
Proof.
  split.
  - split; [cbn; lia|]. repeat constructor; cbn; lia.
  - intros [_ H]. apply Forall_inv in H. destruct H as (_ & H & _). lia.
Qed.

(* ---- C05 ---- *)
Theorem C05_date_queries :
  forall self y m d, date_syntax (i_date self) y m d ->
    api_get_year self = Ok y /\ api_get_month self = Ok (or_minus_one m) /\ api_get_day self = Ok (or_minus_one d).
Proof. exact date_queries_valid. Qed.
Print Assumptions C05_date_queries.

Theorem C05_date_queries_invalid :
  forall self, (forall y m d, ~ date_syntax (i_date self) y m d) ->
    api_get_year self = Ok (-1) /\ api_get_month self = Ok (-1) /\ api_get_day self = Ok (-1).
Proof. exact date_queries_invalid. Qed.
Print Assumptions C05_date_queries_invalid.

Example C05_example : date_syntax [50; 51; 47; 48; 57; 47; 49; 57; 57; 53] 1995 (Some 9) (Some 23). (* 23/09/1995 *)
Proof. apply (DDMY 2 3 0 9 1 9 9 5); unfold digit; lia. Qed.

(* ---- C06 ---- *)
Theorem C06_set_default_song :
  forall self song,
    (0 <= song < i_songs self /\ api_set_default_song self song =
       (true, mkInfo (i_filename self) (i_author self) (i_title self) (i_date self) (i_channels self) (i_songs self)
          song (i_durations self) (i_loops self) (i_ntsc self) (i_type self) (i_fastplay self)
          (i_music self) (i_init self) (i_player self) (i_covox self) (i_headerLen self) (i_songPos self)))
    \/ (~ 0 <= song < i_songs self /\ api_set_default_song self song = (false, self)).
Proof. exact set_default_song_spec. Qed.
Print Assumptions C06_set_default_song.

Theorem C06_set_duration :
  forall self song v, i_songs self <= len (i_durations self) ->
    (0 <= song < i_songs self /\ exists d, api_set_duration self song v = Ok
       (true, mkInfo (i_filename self) (i_author self) (i_title self) (i_date self) (i_channels self) (i_songs self)
          (i_defsong self) d (i_loops self) (i_ntsc self) (i_type self) (i_fastplay self)
          (i_music self) (i_init self) (i_player self) (i_covox self) (i_headerLen self) (i_songPos self))
       /\ length d = length (i_durations self)
       /\ forall k, 0 <= k < len d -> at_ d k = if k =? song then v else at_ (i_durations self) k)
    \/ (~ 0 <= song < i_songs self /\ api_set_duration self song v = Ok (false, self)).
Proof. exact set_duration_spec. Qed.
Print Assumptions C06_set_duration.

Theorem C06_set_loop :
  forall self song v, i_songs self <= len (i_loops self) ->
    (0 <= song < i_songs self /\ exists d, api_set_loop self song v = Ok
       (true, mkInfo (i_filename self) (i_author self) (i_title self) (i_date self) (i_channels self) (i_songs self)
          (i_defsong self) (i_durations self) d (i_ntsc self) (i_type self) (i_fastplay self)
          (i_music self) (i_init self) (i_player self) (i_covox self) (i_headerLen self) (i_songPos self))
       /\ length d = length (i_loops self)
       /\ forall k, 0 <= k < len d ->
            nth (Z.to_nat k) d false = if k =? song then v else nth (Z.to_nat k) (i_loops self) false)
    \/ (~ 0 <= song < i_songs self /\ api_set_loop self song v = Ok (false, self)).
Proof. exact set_loop_spec. Qed.
Print Assumptions C06_set_loop.

Theorem C06_set_music_address :
  forall self v,
    (0 <= v <= 65534 /\ api_set_music_address self v =
       (true, mkInfo (i_filename self) (i_author self) (i_title self) (i_date self) (i_channels self) (i_songs self)
          (i_defsong self) (i_durations self) (i_loops self) (i_ntsc self) (i_type self) (i_fastplay self)
          v (i_init self) (i_player self) (i_covox self) (i_headerLen self) (i_songPos self)))
    \/ (~ 0 <= v <= 65534 /\ api_set_music_address self v = (false, self)).
Proof. exact set_music_address_spec. Qed.
Print Assumptions C06_set_music_address.

Example C06_example :
  exists self, i_songs self = 3 /\ i_songs self <= len (i_durations self) /\ i_songs self <= len (i_loops self)
    /\ api_get_duration self 2 = Ok 5000.
Proof.
  exists (mkInfo [] [] [] [] 1 3 0 ([1000; -1; 5000] ++ repeat (-1) 29) (repeat false 32) false SAP_B 312 (-1) 0 0 (-1) 0 []).
  cbn. repeat split; lia.
Qed.

(* ---- C07 ---- *)
Theorem C07_set_ntsc :
  forall self ntsc, i_songs self <= len (i_durations self) ->
  exists self', api_set_ntsc self ntsc = Ok self'
  /\ i_ntsc self' = ntsc
  /\ i_fastplay self' = (if ntsc then 262 else 312)
  /\ length (i_durations self') = length (i_durations self)
  /\ (forall k, 0 <= k < len (i_durations self) ->
        let d := at_ (i_durations self) k in
        let d' := at_ (i_durations self') k in
        (i_songs self <= k \/ d <= 0 -> d' = d)
        /\ (ntsc = true -> k < i_songs self -> 0 < d <= 2147483647 -> d' = d * 5956963 / 7159090)
        /\ (ntsc = false -> k < i_songs self -> 0 < d <= 1786886410 -> d' = d * 7159090 / 5956963))
  /\ (i_filename self', i_author self', i_title self', i_date self', i_channels self', i_songs self',
      i_defsong self', i_loops self', i_type self')
   = (i_filename self, i_author self, i_title self, i_date self, i_channels self, i_songs self,
      i_defsong self, i_loops self, i_type self)
  /\ (i_music self', i_init self', i_player self', i_covox self', i_headerLen self', i_songPos self')
   = (i_music self, i_init self, i_player self, i_covox self, i_headerLen self, i_songPos self)
  /\ (i_type self = SAP_B <-> api_can_set_ntsc self' = true).
Proof. exact set_ntsc_full. Qed.
Print Assumptions C07_set_ntsc.

Theorem C07_there_and_back :
  forall self, 0 <= i_songs self <= len (i_durations self) ->
  (forall k, 0 <= k < i_songs self -> at_ (i_durations self) k <= 2147483647) ->
  exists back, (there <- api_set_ntsc self true ;; api_set_ntsc there false) = Ok back
  /\ forall k, 0 <= k < len (i_durations self) ->
    let d := at_ (i_durations self) k in
    let d' := at_ (i_durations back) k in
    d' <= d <= d' + 2 /\ (d <= 0 -> d' = d).
Proof. exact ntsc_there_and_back. Qed.
Print Assumptions C07_there_and_back.

(* NTSC->PAL of a duration from 1786886411 ms on does not fit in int and wraps to a negative one *)
Theorem C07_long_durations_refuted :
  exists self self', i_songs self <= len (i_durations self)
    /\ at_ (i_durations self) 0 = 1786886411
    /\ api_set_ntsc self false = Ok self'
    /\ at_ (i_durations self') 0 < 0.
Proof. exact ntsc_long_duration. Qed.
Print Assumptions C07_long_durations_refuted.

Example C07_example :
  exists self self', 0 <= i_songs self <= len (i_durations self)
    /\ at_ (i_durations self) 0 = 123456 /\ api_set_ntsc self true = Ok self'
    /\ at_ (i_durations self') 0 = 102725 /\ api_can_set_ntsc self' = true.
Proof.
  exists (mkInfo [] [] [] [] 1 1 0 (123456 :: repeat (-1) 31) (repeat false 32) false SAP_B 312 (-1) 0 0 (-1) 0 []).
  eexists. split; [cbn; lia|]. repeat split.
Qed.

(* ---- C08 ---- *)
Theorem C08_is_our_file :
  forall name, is_our_file name = true <-> supported_name name.
Proof. exact is_our_file_spec. Qed.
Print Assumptions C08_is_our_file.

(* IsOurExt, unlike IsOurFile, takes some control characters for digits: "cm" followed by code 19 *)
Theorem C08_is_our_ext_refuted :
  exists ext, is_our_ext ext = true /\ ~ In (map lower ext) supported_exts.
Proof. exact is_our_ext_control_char. Qed.
Print Assumptions C08_is_our_ext_refuted.

Theorem C08_is_our_ext :
  forall ext, Forall (fun c => 33 <= c <= 122) ext ->
    (is_our_ext ext = true <-> In (map lower ext) supported_exts).
Proof. exact is_our_ext_spec. Qed.
Print Assumptions C08_is_our_ext.

Example C08_example : supported_name [120; 46; 121; 46; 84; 109; 56]. (* x.y.Tm8 *)
Proof.
  exists [120; 46; 121], [84; 109; 56]. split; [reflexivity|]. split; [discriminate|]. cbn. auto 20.
Qed.
