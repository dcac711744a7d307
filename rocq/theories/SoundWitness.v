(* Concrete runs for the examples and refutations of PropertiesSound.v *)
From Coq Require Import String.
From Verif Require Import Base BaseFacts Loop MemModel InfoModel NativeModel PokeyModel MachineModel PlayModel PlaySpec SessionSpec SapWitness MachineWitness CpuWitness PlayWitness SoundSpec.

Definition line (s : string) : list Z := str s ++ [13; 10].
Definition block (a : Z) (code : list Z) : list Z := [Z.land a 255; Z.shiftr a 8; Z.land (a + len code - 1) 255; Z.shiftr (a + len code - 1) 8] ++ code.
Notation start rate file := (s <- asap_load 100 sap_name file (api_set_sample_rate rate heard_asap) ;; api_play_song 0 (-1) s).
Lemma start_listens lo hi rate file s : lo <= rate <= hi -> countable (-1) rate -> bytesb file = true -> start rate file = Ok (true, s) -> listening lo hi s.
Proof.
  intros R C B E. destruct (asap_load 100 sap_name file (api_set_sample_rate rate heard_asap)) as [s1| | |] eqn:L; cbn [bind] in E; try discriminate E.
  exact (listen_load lo hi _ _ _ _ s1 0 (-1) s (heard_object rate) (proj1 (bytesb_spec _) B) R C L E).
Qed.

(* counts the frames at address 80; SKCTL = 0 stops the noise and the slow channels *)
Definition count_sap : list Z :=
  line "SAP" ++ line "TYPE B" ++ line "INIT 0600" ++ line "PLAYER 0606" ++ [255; 255] ++ block 0x600 [0xA9; 0; 0x8D; 0x0F; 0xD2; 0x60; 0xE6; 0x80; 0x60].
Definition counter (s : asap) : Z := ld (m_memory s) 128.
Lemma counted :
  result counter (calls (start 4000 count_sap) (serve_all [Generate (repeat 0 100) 100 U8])) = Some 2 /\
  result counter (calls (start 2000 count_sap) (serve_all [SeekForward 10; DetectSilence 5; Generate (repeat 0 80) 80 S16LE])) = Some 2 /\
  result counter (calls (start 2000 count_sap) (fun s => '(_, s) <- api_seek_sample 50 s ;; '(_, s) <- api_seek_sample 10 s ;; Ok s)) = Some 3.
Proof. vm_compute. split; [reflexivity|split; reflexivity]. Qed.

(* waits for timer 1, whose interrupt routine stores 1 at address 80 *)
Definition timer_sap : list Z :=
  line "SAP" ++ line "TYPE D" ++ line "INIT 0600" ++ [255; 255]
  ++ block 0x600 [0xA9; 0; 0x8D; 0x0F; 0xD2; 0xA9; 0x40; 0x8D; 0x08; 0xD2; 0xA9; 0xFF; 0x8D; 0x00; 0xD2; 0xA9; 1; 0x8D; 0x0E; 0xD2; 0x58; 0x02; 0xA9; 1; 0x85; 0x80; 0x02] ++ block 0xFFFE [0x16; 0x06].
Lemma timer_runs :
  result (fun x => x) (calls (start 2000 timer_sap) (fun s => Ok (result counter (frames 1 s), result counter (frames 1 (api_mute 1 s))))) = Some (Some 1, Some 0).
Proof. vm_compute. reflexivity. Qed.

(* channels 3 and 4 joined, only channel 3 has a volume *)
Definition joined_sap : list Z :=
  line "SAP" ++ line "TYPE D" ++ line "INIT 0600" ++ [255; 255]
  ++ block 0x600 [0xA9; 0; 0x8D; 0x0F; 0xD2; 0xA9; 11; 0x8D; 0x06; 0xD2; 0xA9; 0x28; 0x8D; 0x08; 0xD2; 0xA9; 0xAF; 0x8D; 0x05; 0xD2; 0x02].
Definition heard (n : Z) (s : asap) : outcome (Z * list Z * list Z * Z) :=
  '(k, b, s) <- api_generate (repeat 0 (Z.to_nat n)) n U8 s ;; Ok (k, b, map (fun i => api_channel_volume i s) [0; 1; 2; 3], Z.land (ch_mute (channel_of s 2)) 2).
Notation sounding := [145; 161; 177; 175; 157; 139; 121; 122; 122; 122; 139; 156; 155; 154; 153; 152; 169; 184; 166; 164].
Lemma joined_runs :
  result (fun x => x) (calls (start 4000 joined_sap) (fun s => x <- heard 20 (api_mute 4 s) ;; y <- heard 20 (api_mute 12 s) ;; Ok (x, y)))
  = Some ((20, sounding, [0; 0; 15; 0], 2), (20, repeat 128 20, [0; 0; 15; 0], 2)).
Proof. vm_compute. reflexivity. Qed.

(* switches the four channels between constant volume 15 and 0 *)
Definition switch_sap : list Z :=
  line "SAP" ++ line "TYPE B" ++ line "INIT 0600" ++ line "PLAYER 0606" ++ [255; 255]
  ++ block 0x600 [0xA9; 0; 0x8D; 0x0F; 0xD2; 0x60; 0xA5; 0x80; 0x49; 0x0F; 0x85; 0x80; 0x09; 0x10; 0x8D; 0x01; 0xD2; 0x8D; 0x03; 0xD2; 0x8D; 0x05; 0xD2; 0x8D; 0x07; 0xD2; 0x60].
Lemma switch_reads :
  result (fun x => x) (calls (start 4000 switch_sap) (fun s => s1 <- frames 1 s ;; s2 <- frames 1 (api_mute 15 s1) ;; Ok (match frames 1 (api_mute 0 s2) with UB u => Some u | _ => None end))) = Some (Some UbRead).
Proof. vm_compute. reflexivity. Qed.
Lemma muted_timer : exists s t u, listening 59 262143 s /\ frames 1 s = Ok t /\ frames 1 (api_mute 1 s) = Ok u /\ m_memory t <> m_memory u.
Proof.
  pose proof timer_runs as E. apply calls_inv in E. destruct E as (s & E & R). cbn [result] in R.
  destruct (frames 1 s) as [t| | |] eqn:T; destruct (frames 1 (api_mute 1 s)) as [u| | |] eqn:U; try discriminate R. exists s, t, u.
  split; [apply (start_listens _ _ 2000 timer_sap); [lia|vm_compute; discriminate|vm_compute; reflexivity|exact E]|]. split; [exact T|]. split; [exact U|].
  intros M. cbn [result] in R. unfold counter in R. rewrite M in R. assert (0 = 1) by congruence. lia.
Qed.
Lemma muted_sounds : exists s b s', listening 59 262143 s /\ api_generate (repeat 0 20) 20 U8 (api_mute 4 s) = Ok (20, b, s') /\
  map (fun i => api_channel_volume i s') [0; 1; 2; 3] = [0; 0; 15; 0] /\ b = sounding.
Proof.
  pose proof joined_runs as E. apply calls_inv in E. destruct E as (s & E & R). apply bind_inv in R. destruct R as (x & X & R). apply bind_inv in R. destruct R as (y & Y & R).
  cbn [result] in R. assert (Rx : x = (20, sounding, [0; 0; 15; 0], 2)) by congruence. unfold heard in X. change (Z.to_nat 20) with 20%nat in X. clear R Y y. subst x.
  apply bind_ok in X. destruct X as ([[n b] s'] & G & X). exists s, b, s'.
  assert (n = 20) as -> by congruence. assert (B : b = sounding) by congruence. assert (V : map (fun i => api_channel_volume i s') [0; 1; 2; 3] = [0; 0; 15; 0]) by congruence.
  split; [apply (start_listens _ _ 4000 joined_sap); [lia|vm_compute; discriminate|vm_compute; reflexivity|exact E]|]. split; [exact G|]. split; [exact V|exact B].
Qed.
Lemma mute_overflows : exists s t u, listening 59 262143 s /\ frames 1 s = Ok t /\ frames 1 (api_mute 15 t) = Ok u /\ frames 1 (api_mute 0 u) = UB UbRead.
Proof.
  pose proof switch_reads as E. apply calls_inv in E. destruct E as (s & E & R). apply bind_inv in R. destruct R as (t & T & R). apply bind_inv in R. destruct R as (u & U & R).
  cbn [result] in R. exists s, t, u. split; [apply (start_listens _ _ 4000 switch_sap); [lia|vm_compute; discriminate|vm_compute; reflexivity|exact E]|]. split; [exact T|]. split; [exact U|].
  destruct (frames 1 (api_mute 0 u)) as [x| |r|]; try discriminate R. congruence.
Qed.
Definition chip (f : pokey -> pokey) : outcome pokey :=
  '(_, p) <- pokey_poke fresh_pair 0 9 10 (f fresh_pokey) ;; '(_, p) <- pokey_poke fresh_pair 1 0x1F 14 p ;; '(_, p) <- pokey_poke fresh_pair 8 1 18 p ;; Ok p.
Lemma chips :
  result (fun p => (ch_audf (pk_ch0 p), ch_audc (pk_ch0 p), ch_periodCycles (pk_ch0 p), pk_sumDACInputs p)) (chip (fun p => p)) = Some (9, 0x1F, 1140, 15) /\
  result (fun p => (ch_audf (pk_ch0 p), ch_audc (pk_ch0 p), ch_periodCycles (pk_ch0 p), pk_sumDACInputs p)) (chip (pokey_mute 15)) = Some (9, 0x1F, 1140, 0).
Proof. vm_compute. split; reflexivity. Qed.
