(* Concrete calls of ASAP_GetWavHeader *)
From Coq Require Import String.
From Verif Require Import Base BaseFacts Loop MemModel InfoModel NativeModel PokeyModel MachineModel PlayModel PlaySpec SessionSpec SapWitness MachineWitness CpuWitness PlayWitness WavSpec InfoSpec.

(* the file of PlayWitness.v with a title, an author and a date *)
Definition tagged_sap (title : list Z) : list Z :=
  str "SAP" ++ [13; 10] ++ str "AUTHOR ""Bo""" ++ [13; 10] ++ str "NAME """ ++ title ++ str """" ++ [13; 10] ++ str "DATE ""09/1995""" ++ [13; 10]
  ++ str "TYPE D" ++ [13; 10] ++ str "INIT 0600" ++ [13; 10] ++ [255; 255; 0; 6; 5; 6] ++ [0xA9; 0x1F; 0x8D; 0x01; 0xD2; 0x02].
Notation tagged_song title rate duration := (s <- asap_load 1000 sap_name (tagged_sap title) (api_set_sample_rate rate heard_asap) ;; api_play_song 0 duration s).
Lemma tagged_listens title rate duration s : bytesb (tagged_sap title) = true -> 59 <= rate <= 262143 -> countable duration rate ->
  tagged_song title rate duration = Ok (true, s) -> listening 59 262143 s.
Proof.
  intros B R C E. destruct (asap_load 1000 sap_name (tagged_sap title) (api_set_sample_rate rate heard_asap)) as [s1| | |] eqn:L; cbn [bind] in E; try discriminate E.
  exact (listen_load 59 262143 _ _ _ _ s1 0 duration s (heard_object rate) (proj1 (bytesb_spec _) B) R C L E).
Qed.

Notation tune_header := (str "RIFF" ++ [248; 0; 0; 0] ++ str "WAVE" ++ str "fmt " ++ [16; 0; 0; 0; 1; 0; 1; 0; 64; 31; 0; 0; 128; 62; 0; 0; 2; 0; 16; 0]
  ++ str "LIST" ++ [44; 0; 0; 0] ++ str "INFO" ++ str "INAM" ++ [6; 0; 0; 0] ++ str "Tune" ++ [0; 0] ++ str "IART" ++ [4; 0; 0; 0] ++ str "Bo" ++ [0; 0]
  ++ str "ICRD" ++ [6; 0; 0; 0] ++ str "1995" ++ [0; 0] ++ str "data" ++ [160; 0; 0; 0]).
Lemma tune_wav : exists s, listening 59 262143 s /\ i_title (m_info s) = str "Tune" /\ i_author (m_info s) = str "Bo" /\ i_date (m_info s) = str "09/1995"
  /\ blocks_in (m_currentDuration s) (m_currentSampleRate s) = 80
  /\ api_wav_header (repeat 7 106) S16LE true s = Ok (96, tune_header ++ repeat 7 10).
Proof.
  assert (E : result (fun x => x) (calls (tagged_song (str "Tune") 8000 10) (fun s => h <- api_wav_header (repeat 7 106) S16LE true s ;;
      Ok (h, i_title (m_info s), i_author (m_info s), i_date (m_info s), blocks_in (m_currentDuration s) (m_currentSampleRate s))))
    = Some ((96, tune_header ++ repeat 7 10), str "Tune", str "Bo", str "09/1995", 80)) by (vm_compute; reflexivity).
  apply calls_inv in E. destruct E as (s & E1 & E). apply bind_inv in E. destruct E as (h & E2 & E). cbn [result] in E. exists s.
  split; [apply (tagged_listens (str "Tune") 8000 10); [vm_compute; reflexivity|lia|vm_compute; discriminate|exact E1]|].
  rewrite E2. repeat (split; [congruence|]). congruence.
Qed.

(* 81 bytes of samples: an odd chunk without padding *)
Lemma odd_wav : exists s buffer' s', listening 59 262143 s /\ 0 < m_currentDuration s /\
  api_wav_header (repeat 7 44) U8 false s = Ok (44, wave_header 1 8100 1 [] 81) /\ api_generate (repeat 7 82) 82 U8 s = Ok (81, buffer', s').
Proof.
  assert (E : result (fun x => x) (calls (first_song 8100 10) (fun s => '(n, b, s') <- api_generate (repeat 7 82) 82 U8 s ;; h <- api_wav_header (repeat 7 44) U8 false s ;;
      Ok (h, n, m_currentDuration s))) = Some ((44, wave_header 1 8100 1 [] 81), 81, 10)) by (vm_compute; reflexivity).
  apply calls_inv in E. destruct E as (s & E1 & E). apply bind_inv in E. destruct E as ([[n b] s'] & E2 & E). apply bind_inv in E. destruct E as (h & E3 & E). cbn [result] in E.
  exists s, b, s'. split; [apply (first_song_listens _ _ 8100 10); [lia|vm_compute; discriminate|exact E1]|]. rewrite E3, E2.
  assert (n = 81) by congruence. assert (h = (44, wave_header 1 8100 1 [] 81)) by congruence. assert (m_currentDuration s = 10) by congruence. subst n h. split; [lia|]. split; reflexivity.
Qed.

(* a song that plays until stopped *)
Lemma endless_wav : exists s, listening 59 262143 s /\ m_currentDuration s = -1 /\
  result (fun x => skipn 40 (snd x)) (api_wav_header (repeat 7 44) U8 false s) = Some [248; 255; 255; 255].
Proof.
  assert (E : result (fun x => x) (calls (first_song 8000 (-1)) (fun s => Ok (result (fun x => skipn 40 (snd x)) (api_wav_header (repeat 7 44) U8 false s), m_currentDuration s)))
    = Some (Some [248; 255; 255; 255], -1)) by (vm_compute; reflexivity).
  apply calls_inv in E. destruct E as (s & E1 & E). cbn [result] in E. exists s. split; [apply (first_song_listens _ _ 8000 (-1)); [lia|vm_compute; discriminate|exact E1]|].
  split; congruence.
Qed.

(* three days of sound are counted in 31 bits, their WAV file is not *)
Lemma long_wav : exists s, listening 59 262143 s /\ 0 < m_currentDuration s /\ api_wav_header (repeat 7 44) U8 false s = UB UbOverflow.
Proof.
  assert (E : result (fun x => x) (calls (first_song 8000 268435455) (fun s => Ok (match api_wav_header (repeat 7 44) U8 false s with UB UbOverflow => true | _ => false end, m_currentDuration s)))
    = Some (true, 268435455)) by (vm_compute; reflexivity).
  apply calls_inv in E. destruct E as (s & E1 & E). cbn [result] in E. exists s. split; [apply (first_song_listens _ _ 8000 268435455); [lia|vm_compute; discriminate|exact E1]|].
  split; [assert (m_currentDuration s = 268435455) by congruence; lia|].
  destruct (api_wav_header (repeat 7 44) U8 false s) as [x| |r|]; try (exfalso; congruence). destruct r; try (exfalso; congruence). reflexivity.
Qed.

(* a title of 260 characters, which only a file can bring *)
Lemma wide_wav : exists s, listening 59 262143 s /\ len (i_title (m_info s)) = 260 /\ api_wav_header (repeat 7 342) U8 true s = UB UbWrite.
Proof.
  assert (E : result (fun x => x) (calls (tagged_song (repeat 65 260) 8000 10) (fun s => Ok (match api_wav_header (repeat 7 342) U8 true s with UB UbWrite => true | _ => false end, len (i_title (m_info s)))))
    = Some (true, 260)) by (vm_compute; reflexivity).
  apply calls_inv in E. destruct E as (s & E1 & E). cbn [result] in E. exists s.
  split; [apply (tagged_listens (repeat 65 260) 8000 10); [vm_compute; reflexivity|lia|vm_compute; discriminate|exact E1]|].
  split; [congruence|]. destruct (api_wav_header (repeat 7 342) U8 true s) as [x| |r|]; try (exfalso; congruence). destruct r; try (exfalso; congruence). reflexivity.
Qed.
