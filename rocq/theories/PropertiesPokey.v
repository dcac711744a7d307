(* The POKEY properties: C24-C27.
   [register], [noise], [next_output] are NoiseSpec.v's shift registers; [heard], [kept], [saturate] are PlaySpec.v's sample formats.
   [pokey_ok] (PokeyProofs.v) are the register ranges; C29 keeps them through every instruction. *)
From Coq Require Import String.
From Verif Require Import Base MemModel InfoModel PokeyModel MachineModel PlayModel PokeyProofs NoiseSpec NoiseProofs PlaySpec PokeyFacts
  SapWitness MachineWitness CpuWitness PokeyWitness.

(* ---- C24 ---- *)
Theorem C24_sample_formats :
  forall buffer off i f p b' off' p', store_sample buffer off i f p = Ok (b', off', p') ->
    let s := saturate (pk_iirAcc p' / 2048) in
    off' = off + bytes_per_sample f /\ 0 <= off /\ off' <= len buffer /\ len b' = len buffer /\
    heard f (slice b' off off') = kept f s /\
    (forall k, 0 <= k -> ~ (off <= k < off') -> at_ b' k = at_ buffer k) /\
    p' = set_pk_iirAcc (pk_iirAcc p + at_ (pk_deltaBuffer p) i - pk_iirRate p * pk_iirAcc p / 2048) p.
Proof. exact sample_stored. Qed.
Print Assumptions C24_sample_formats.

Example C24_example_u8 : result (fun '(b, o, p) => (b, o, pk_iirAcc p)) (store_sample [1; 2; 3; 4] 1 1 U8 hot) = Some ([1; 255; 3; 4], 2, 69998000).
Proof. exact hot_u8. Qed.
Example C24_example_le : result (fun '(b, o, p) => (b, o, pk_iirAcc p)) (store_sample [1; 2; 3; 4] 1 0 S16LE hot) = Some ([1; 255; 255; 4], 3, -1995).
Proof. exact hot_le. Qed.
Example C24_example_be : result (fun '(b, o, p) => (b, o, pk_iirAcc p)) (store_sample [1; 2; 3; 4] 1 1 S16BE hot) = Some ([1; 127; 255; 4], 3, 69998000).
Proof. exact hot_be. Qed.

(* ---- C25 ---- *)
Theorem C25_maximal_length :
  forall w t, In (w, t) registers ->
    (forall n k, 0 <= n -> 0 <= k -> register w t (n + k * (2 ^ w - 1)) = register w t n) /\
    (forall m n, 0 <= m < 2 ^ w - 1 -> 0 <= n < 2 ^ w - 1 -> register w t m = register w t n -> m = n) /\
    (forall r, 0 < r < 2 ^ w -> exists n, 0 <= n < 2 ^ w - 1 /\ register w t n = r).
Proof. exact maximal_length. Qed.
Print Assumptions C25_maximal_length.

Theorem C25_random_register :
  forall addr cycle pp, Z.land addr 15 = 10 -> 0 <= cycle -> 0 <= pk_polyIndex (selected addr pp) ->
    let p := selected addr pp in let n := pk_polyIndex p + cycle in
    pair_peek addr cycle pp = Ok (if pk_init p then 255
                                  else if Z.testbit (pk_audctl p) 7 then register 9 5 (n + 1) mod 256 else register 17 5 (n + 9) mod 256).
Proof. exact random_read. Qed.
Print Assumptions C25_random_register.

Theorem C25_eight_consecutive_bits :
  forall w t k, In (w, t) registers -> 0 <= k -> forall n, k < w -> 0 <= n -> Z.testbit (register w t n) k = (noise w t (n + k) =? 1).
Proof. exact register_bit. Qed.
Print Assumptions C25_eight_consecutive_bits.

Theorem C25_channel_output :
  forall pp ch cycle p p', channel_index ch -> chan_ok (chan p ch) -> byte (pk_audctl p) -> 0 <= cycle + pk_polyIndex p - ch ->
    do_tick pp ch cycle p = Ok p' ->
    ch_out (chan p' ch) = next_output (ch_audc (chan p ch)) (pk_init p) (Z.testbit (pk_audctl p) 7) (cycle + pk_polyIndex p - ch) (ch_out (chan p ch)).
Proof. exact tick_output. Qed.
Print Assumptions C25_channel_output.

Theorem C25_noise_across_frames :
  forall pp cycle p p', pokey_ok p -> 0 <= cycle -> pokey_end_frame pp cycle p = Ok p' ->
    0 <= pk_polyIndex p' /\
    forall c, 0 <= c ->
      let n' := pk_polyIndex p' + c in let n := pk_polyIndex p + cycle + c in
      register 4 1 n' = register 4 1 n /\ register 5 2 n' = register 5 2 n /\
      (if Z.testbit (pk_audctl p) 7 then register 9 5 n' = register 9 5 n else register 17 5 n' = register 17 5 n).
Proof. exact noise_continues. Qed.
Print Assumptions C25_noise_across_frames.

Example C25_example :
  map (fun c => result (fun v => v) (pair_peek 0xD20A c fresh_pair)) [20; 33] = [Some 31; Some 255] /\
  map (fun c => result (fun v => v) (pair_peek 0xD20A c short_noise)) [20; 33] = [Some 56; Some 18].
Proof. exact random_bytes. Qed.
Example C25_example_registers : map (register 4 1) [0; 1; 2; 3; 4; 5; 15] = [15; 7; 3; 1; 8; 4; 15] /\ map (register 5 2) [0; 1; 4; 31] = [31; 15; 17; 31].
Proof. vm_compute. split; reflexivity. Qed.

(* ---- C26 ---- *)
Theorem C26_mixing :
  forall rate p0 p pp l, pokey_initialize rate p0 = Ok p -> Forall (op_ok (len (pk_deltaBuffer p))) l ->
    chip_runs pp l p <> UB UbRead /\
    forall p', chip_runs pp l p = Ok p' -> pk_sumDACInputs p' = total_volume p' /\ 0 <= pk_sumDACInputs p' <= 60.
Proof. exact mixing. Qed.
Print Assumptions C26_mixing.

Example C26_example : exists p0, started = Ok p0 /\ Forall (op_ok (len (pk_deltaBuffer p0))) melody /\
  result (fun p => (pk_sumDACInputs p, map (fun c => (ch_delta c, ch_audc c)) [pk_ch0 p; pk_ch1 p; pk_ch2 p; pk_ch3 p]))
    (chip_runs fresh_pair melody p0) = Some (11, [(-3, 163); (7, 23); (4, 132); (-9, 169)]).
Proof. exact melody_sum. Qed.

(* PlaySong runs the init routine muted: the volume it sets is never added but is later subtracted, and the table is read at -15 *)
Theorem C26_after_play_song_refuted :
  exists module, play_and_generate 44100 (Some (str "x.sap"%string)) module U8 100 = UB UbRead.
Proof. exists loud_sap. exact loud_reads. Qed.
Print Assumptions C26_after_play_song_refuted.

(* ---- C27 ---- *)
Theorem C27_generation_ends : forall pp limit p, pokey_ok p -> 0 <= limit -> generate_until pp limit p <> OutOfFuel.
Proof. exact generate_ends. Qed.
Print Assumptions C27_generation_ends.

Theorem C27_nothing_pending :
  forall pp limit p p', pokey_ok p -> 0 <= limit -> generate_until pp limit p = Ok p' ->
    (forall i, channel_index i -> limit <= ch_tickCycle (chan p' i)) /\ pokey_ok p' /\ same_regs p p'.
Proof. exact generate_done. Qed.
Print Assumptions C27_nothing_pending.

Theorem C27_register_writes_end :
  forall pp addr data cycle p, pokey_ok p -> byte data -> 0 <= cycle <= 100000 -> pokey_poke pp addr data cycle p <> OutOfFuel.
Proof. exact poke_ends. Qed.
Print Assumptions C27_register_writes_end.

Example C27_example : exists p, tuned = Ok p /\ pokey_ok p.
Proof. exact tuned_ok. Qed.
Example C27_example_ticks :
  result (fun p => map ch_tickCycle [pk_ch0 p; pk_ch1 p; pk_ch2 p; pk_ch3 p]) tuned = Some [18; 18; 18; 18] /\
  result (fun p => map ch_tickCycle [pk_ch0 p; pk_ch1 p; pk_ch2 p; pk_ch3 p]) (p <- tuned ;; generate_until fresh_pair 10000 p)
  = Some [11988; 10050; 10050; 10050].
Proof. exact tuned_ticks. Qed.
