(* Concrete files and calls for the examples and refutations of PropertiesPlay.v *)
From Coq Require Import String.
From Verif Require Import Base BaseFacts Loop MemModel InfoModel NativeModel PokeyModel MachineModel PlayModel PlaySpec SessionSpec SapWitness MachineWitness CpuWitness.

(* a new object whose interpolation table is simple *)
Definition heard_asap : asap := set_m_pokeys (set_pp_sincLookup (fun _ k => if k <? 4 then 4096 else 0) blank_pair) blank_asap.
(* a SAP file whose program at 0600 sets AUDC1 to volume 15 and halts the CPU *)
Definition loop_sap : list Z :=
  str "SAP" ++ [13; 10] ++ str "TYPE D" ++ [13; 10] ++ str "INIT 0600" ++ [13; 10]
  ++ [255; 255; 0; 6; 5; 6] ++ [0xA9; 0x1F; 0x8D; 0x01; 0xD2; 0x02].
Definition sap_name : option (list Z) := Some (str "x.sap").
Notation first_song rate duration := (s <- asap_load 100 sap_name loop_sap (api_set_sample_rate rate heard_asap) ;; api_play_song 0 duration s).
Definition calls {T} (r : outcome (bool * asap)) (f : asap -> outcome T) : outcome T := '(b, s) <- r ;; if (b : bool) then f s else Fail.
Definition call_result (x : Z * list Z * asap) : Z * list Z * Z := let '(n, l, s) := x in (n, l, api_blocks_played s).
Notation generate_result r := (result call_result r).



Lemma calls_inv {T R} (g : T -> R) r f v : result g (calls r f) = Some v -> exists s, r = Ok (true, s) /\ result g (f s) = Some v.
Proof.
  unfold calls. destruct r as [[b s]| | |]; cbn [bind]; try discriminate. destruct b; [|discriminate]. intros H. exists s. now split.
Qed.
Lemma bind_inv {T U R} (g : U -> R) (m : outcome T) f v : result g (bind m f) = Some v -> exists x, m = Ok x /\ result g (f x) = Some v.
Proof. destruct m as [x| | |]; cbn [bind]; try discriminate. intros H. exists x. now split. Qed.

Lemma heard_object rate : object (api_set_sample_rate rate heard_asap).
Proof. split; [exact byte_mem_mem0|reflexivity]. Qed.
Lemma loop_bytes : bytes loop_sap.
Proof. apply bytesb_spec. vm_compute. reflexivity. Qed.
Lemma first_song_listens lo hi rate duration s : lo <= rate <= hi -> countable duration rate -> first_song rate duration = Ok (true, s) -> listening lo hi s.
Proof.
  intros R C E. destruct (asap_load 100 sap_name loop_sap (api_set_sample_rate rate heard_asap)) as [s1| | |] eqn:L; cbn [bind] in E; try discriminate E.
  exact (listen_load lo hi _ _ _ _ s1 0 duration s (heard_object rate) loop_bytes R C L E).
Qed.

(* ten milliseconds at 8000 Hz, asking for 100 bytes *)
Notation curve := [145; 161; 178; 194; 193; 192; 191; 190; 189; 188; 187; 186; 185; 184; 183; 182; 181; 181; 180; 179; 178; 177; 176; 176; 175; 174;
           173; 173; 172; 171; 170; 170; 169; 168; 168; 167; 166; 166; 165; 165; 164; 163; 163; 162; 162; 161; 161; 160; 160; 159; 159; 158;
           158; 157; 157; 156; 156; 155; 155; 154; 154; 153; 153; 153; 152; 152; 151; 151; 151; 150; 150; 150; 149; 149; 149; 148; 148; 148; 147; 147].
Lemma short_song : exists s, listening 2578 69704 s /\ listening 59 262143 s /\ m_silenceCycles s = 0 /\ block_size U8 s = 1 /\
  generate_result (api_generate (repeat 7 100) 100 U8 s) = Some (80, curve ++ repeat 7 20, 80).
Proof.
  assert (E : result (fun x => x) (calls (first_song 8000 10) (fun s => Ok (generate_result (api_generate (repeat 7 100) 100 U8 s), m_silenceCycles s, block_size U8 s)))
    = Some (Some (80, curve ++ repeat 7 20, 80), 0, 1)) by (vm_compute; reflexivity).
  apply calls_inv in E. destruct E as (s & E1 & E2). cbn [result] in E2. exists s. split; [|split].
  - apply (first_song_listens _ _ 8000 10); [lia|vm_compute; discriminate|exact E1].
  - apply (first_song_listens _ _ 8000 10); [lia|vm_compute; discriminate|exact E1].
  - split; [congruence|split; congruence].
Qed.

(* seeking past the end makes the count negative *)
Lemma seek_past_end : exists s s1, listening 59 262143 s /\ api_seek 20 s = Ok (true, s1) /\
  generate_result (api_generate (repeat 7 10) 10 U8 s1) = Some (-80, repeat 7 10, 80).
Proof.
  assert (E : generate_result (calls (first_song 8000 10) (fun s => calls (api_seek 20 s) (fun s => api_generate (repeat 7 10) 10 U8 s))) = Some (-80, repeat 7 10, 80))
    by (vm_compute; reflexivity).
  apply calls_inv in E. destruct E as (s & E1 & E2). apply calls_inv in E2. destruct E2 as (s1 & E2 & E3). exists s, s1. split; [|split; assumption].
  apply (first_song_listens _ _ 8000 10); [lia|vm_compute; discriminate|exact E1].
Qed.
(* a duration of 11 days: its number of blocks does not fit 31 bits *)
Lemma long_song : exists s1 s, asap_load 100 sap_name loop_sap (api_set_sample_rate 8000 heard_asap) = Ok s1 /\ api_play_song 0 1000000000 s1 = Ok (true, s) /\
  generate_result (api_generate (repeat 7 10) 10 U8 s) = Some (-589934592, repeat 7 10, -589934592).
Proof.
  assert (E : generate_result (calls (first_song 8000 1000000000) (fun s => api_generate (repeat 7 10) 10 U8 s)) = Some (-589934592, repeat 7 10, -589934592))
    by (vm_compute; reflexivity).
  apply calls_inv in E. destruct E as (s & E1 & E2). destruct (asap_load 100 sap_name loop_sap (api_set_sample_rate 8000 heard_asap)) as [s1| | |]; cbn [bind] in E1; try discriminate E1.
  exists s1, s. split; [reflexivity|]. split; assumption.
Qed.

(* the same song started a second time *)
Lemma replay_differs : exists s0 buf0 s s2, listening 59 262143 s0 /\ m_currentSong s0 = 0 /\ m_currentDuration s0 = -1 /\
  api_generate (repeat 7 10) 10 U8 s0 = Ok (10, buf0, s) /\ buf0 = [145; 161; 178; 194; 193; 192; 191; 190; 189; 188] /\
  api_play_song 0 (-1) s = Ok (true, s2) /\ generate_result (api_generate (repeat 7 10) 10 U8 s2) = Some (10, repeat 128 10, 10).
Proof.
  assert (E : result (fun x => x) (calls (first_song 8000 (-1)) (fun s0 => '(n, buf0, s) <- api_generate (repeat 7 10) 10 U8 s0 ;;
      calls (api_play_song 0 (-1) s) (fun s2 => Ok (m_currentSong s0, m_currentDuration s0, n, buf0, generate_result (api_generate (repeat 7 10) 10 U8 s2)))))
    = Some (0, -1, 10, [145; 161; 178; 194; 193; 192; 191; 190; 189; 188], Some (10, repeat 128 10, 10))) by (vm_compute; reflexivity).
  apply calls_inv in E. destruct E as (s0 & E1 & E). apply bind_inv in E. destruct E as ([[n buf0] s] & E2 & E). apply calls_inv in E. destruct E as (s2 & E3 & E).
  cbn [result] in E. assert (n = 10) by congruence. subst n. exists s0, buf0, s, s2.
  split; [apply (first_song_listens _ _ 8000 (-1)); [lia|vm_compute; discriminate|exact E1]|].
  split; [congruence|]. split; [congruence|]. split; [exact E2|]. split; [congruence|]. split; [exact E3|congruence].
Qed.

(* seeking to block 40, and playing there *)
Lemma seek_differs : exists s s1 s2, listening 59 262143 s /\ m_silenceCycles s = 0 /\
  api_seek 5 s = Ok (true, s1) /\ delivers (repeat 7 40) 40 U8 s (firstn 40 curve) s2 /\ api_blocks_played s1 = api_blocks_played s2 /\
  generate_result (api_generate (repeat 7 10) 10 U8 s1) = Some (10, repeat 128 10, 50) /\
  generate_result (api_generate (repeat 7 10) 10 U8 s2) = Some (10, firstn 10 (skipn 40 curve), 50).
Proof.
  assert (E : result (fun x => x) (calls (first_song 8000 (-1)) (fun s => calls (api_seek 5 s) (fun s1 => '(n, buf, s2) <- api_generate (repeat 7 40) 40 U8 s ;;
      Ok (n, buf, m_silenceCycles s, api_blocks_played s1, api_blocks_played s2, generate_result (api_generate (repeat 7 10) 10 U8 s1), generate_result (api_generate (repeat 7 10) 10 U8 s2)))))
    = Some (40, firstn 40 curve, 0, 40, 40, Some (10, repeat 128 10, 50), Some (10, firstn 10 (skipn 40 curve), 50))) by (vm_compute; reflexivity).
  apply calls_inv in E. destruct E as (s & E1 & E). apply calls_inv in E. destruct E as (s1 & E2 & E). apply bind_inv in E. destruct E as ([[n buf] s2] & E3 & E). cbn [result] in E.
  exists s, s1, s2. split; [apply (first_song_listens _ _ 8000 (-1)); [lia|vm_compute; discriminate|exact E1]|].
  split; [congruence|]. split; [exact E2|]. split; [|split; [congruence|split; congruence]].
  exists n, buf. split; [exact E3|]. assert (n = 40) by congruence. assert (B : buf = firstn 40 curve) by congruence. subst n. rewrite B. split; reflexivity.
Qed.
(* ten blocks were taken from the frame already: the seek lands ten blocks early *)
Lemma seek_early : exists s s1 s2, listening 59 262143 s /\ api_blocks_played s = 10 /\ api_seek 5 s = Ok (true, s1) /\ delivers (repeat 7 30) 30 U8 s (firstn 30 (skipn 10 curve)) s2 /\
  api_blocks_played s1 = api_blocks_played s2 /\ pp_readySamplesStart (m_pokeys s1) = 30 /\ pp_readySamplesStart (m_pokeys s2) = 40.
Proof.
  assert (E : result (fun x => x) (calls (first_song 8000 (-1)) (fun s0 => '(n0, buf0, s) <- api_generate (repeat 7 10) 10 U8 s0 ;;
      calls (api_seek 5 s) (fun s1 => '(n, buf, s2) <- api_generate (repeat 7 30) 30 U8 s ;;
      Ok (n, buf, api_blocks_played s, api_blocks_played s1, api_blocks_played s2, pp_readySamplesStart (m_pokeys s1), pp_readySamplesStart (m_pokeys s2)))))
    = Some (30, firstn 30 (skipn 10 curve), 10, 40, 40, 30, 40)) by (vm_compute; reflexivity).
  apply calls_inv in E. destruct E as (s0 & E1 & E). apply bind_inv in E. destruct E as ([[n0 buf0] s] & E0 & E).
  apply calls_inv in E. destruct E as (s1 & E2 & E). apply bind_inv in E. destruct E as ([[n buf] s2] & E3 & E). cbn [result] in E.
  exists s, s1, s2. split; [|split; [congruence|split; [exact E2|]]].
  - apply (listen_generate 59 262143 (repeat 7 10) 10 U8 n0 buf0 s0 s); [|vm_compute; split; discriminate|vm_compute; discriminate|exact E0].
    apply (first_song_listens _ _ 8000 (-1)); [lia|vm_compute; discriminate|exact E1].
  - split; [|split; [congruence|split; congruence]]. exists n, buf. split; [exact E3|]. assert (n = 30) by congruence. assert (B : buf = firstn 30 (skipn 10 curve)) by congruence.
    subst n. rewrite B. split; reflexivity.
Qed.
(* at 11025 Hz the reported position drifts *)
Lemma position_drifts : exists s p, m_currentSampleRate s = 11025 /\ api_blocks_played s = blocks_in 600000 11025 /\ api_get_position s = Ok p /\ p = 601363.
Proof. exists (set_m_blocksPlayed 6615000 (api_set_sample_rate 11025 blank_asap)), 601363. repeat split. Qed.
