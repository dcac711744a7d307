(* Concrete runs for the examples and refutations of PropertiesSilence.v *)
From Coq Require Import String.
From Verif Require Import Base BaseFacts Loop MemModel InfoModel NativeModel PokeyModel MachineModel PlayModel PlaySpec SessionSpec SapWitness MachineWitness CpuWitness PlayWitness SoundSpec SoundWitness SilenceSpec.

Definition silence_left (x : Z * list Z * asap) : Z * Z := let '(n, _, s) := x in (n, m_silenceCyclesCounter s).
Lemma silent_run : exists s t b, start 4000 count_sap = Ok (true, s) /\ api_detect_silence 1 s = Ok t /\ cycles_per_frame t = 35568 /\ frames_needed 1 t = 50 /\
  result silence_left (api_generate b 100 U8 t) = Some (100, 1773447 - 2 * 35568).
Proof.
  assert (E : result (fun x => x) (calls (start 4000 count_sap) (fun s => t <- api_detect_silence 1 s ;; Ok (cycles_per_frame t, frames_needed 1 t, result silence_left (api_generate (repeat 7 100) 100 U8 t))))
    = Some (35568, 50, Some (100, 1773447 - 2 * 35568))) by (vm_compute; reflexivity).
  apply calls_inv in E. destruct E as (s & E1 & E2). apply bind_inv in E2. destruct E2 as (t & E2 & E3). cbn [result] in E3. exists s, t, (repeat 7 100). repeat split; try assumption; congruence.
Qed.
(* a limit of 60000 cycles: playback ends after the second frame *)
Definition limited (s : asap) : asap := set_m_silenceCyclesCounter 60000 (set_m_silenceCycles 60000 s).
Lemma ended_run :
  result silence_left (calls (start 4000 count_sap) (fun s => api_generate (repeat 7 200) 200 U8 (limited s))) = Some (80, 60000 - 2 * 35568) /\
  result silence_left (calls (start 4000 count_sap) (fun s => t <- serve_all [Generate (repeat 7 10) 10 U8; Generate (repeat 7 160) 160 S16LE] (limited s) ;; api_generate (repeat 7 10) 10 U8 t)) = Some (0, 60000 - 2 * 35568).
Proof. vm_compute. split; reflexivity. Qed.

(* the player sets the volume to 15, waits and sets it to 0 *)
Definition blip_sap : list Z :=
  line "SAP" ++ line "TYPE B" ++ line "INIT 0600" ++ line "PLAYER 0606" ++ [255; 255]
  ++ block 0x600 [0xA9; 0; 0x8D; 0x0F; 0xD2; 0x60; 0xA9; 0x1F; 0x8D; 0x01; 0xD2; 0xA2; 0; 0xCA; 0xD0; 0xFD; 0xA9; 0; 0x8D; 0x01; 0xD2; 0x60].
Definition heard_and_left (x : Z * list Z * asap) : Z * list Z * Z := let '(n, b, s) := x in (n, [nth 2 b 0; nth 6 b 0; nth 60 b 0; nth 82 b 0; nth 86 b 0], m_silenceCyclesCounter s).
Lemma blip_run : exists s t b, start 4000 blip_sap = Ok (true, s) /\ api_detect_silence 1 s = Ok t /\
  result heard_and_left (api_generate b 100 U8 t) = Some (100, [177; 121; 126; 177; 121], 1773447 - 2 * 35568).
Proof.
  assert (E : result (fun x => x) (calls (start 4000 blip_sap) (fun s => t <- api_detect_silence 1 s ;; Ok (result heard_and_left (api_generate (repeat 7 100) 100 U8 t))))
    = Some (Some (100, [177; 121; 126; 177; 121], 1773447 - 2 * 35568))) by (vm_compute; reflexivity).
  apply calls_inv in E. destruct E as (s & E1 & E2). apply bind_inv in E2. destruct E2 as (t & E2 & E3). cbn [result] in E3. exists s, t, (repeat 7 100). repeat split; try assumption; congruence.
Qed.
