(* When the player is called: scanlines, frames and whole songs *)
From Verif Require Import Base MemModel InfoModel InfoProofs PokeyModel MachineModel PlayModel FrameProofs SoundSpec CallSpec.

(* the event of this instruction calls the player *)
Definition calls_player (t : asap) : Prop := m_nextEventCycle t <= m_cycle t /\ player_due t.

(* t is reached from s inside a frame of [limit] cycles, the player having been called in the scanlines l, in this order *)
Inductive plays (limit : Z) (s : asap) : list Z -> asap -> Prop :=
| plays_start : plays limit s [] s
| plays_on l t t1 t2 : plays limit s l t -> m_cycle t < limit -> ~ calls_player t -> poll_event t = Ok t1 -> execute t1 = Ok t2 -> plays limit s l t2
| plays_call l t t1 t2 : plays limit s l t -> m_cycle t < limit -> calls_player t -> poll_event t = Ok t1 -> execute t1 = Ok t2 ->
    plays limit s (l ++ [m_nextScanlineCycle t / 114]) t2.

(* the scanlines of the frame begun in s in which the player is called *)
Definition frame_calls (s : asap) (l : list Z) : Prop :=
  exists pp t, pair_start_frame (m_pokeys s) = Ok pp /\
    plays (frame_cycles (m_info s)) (frame_start (set_m_pokeys pp (set_m_gtiaOrCovoxPlayedThisFrame false s))) l t /\ frame_cycles (m_info s) <= m_cycle t.

(* scanlines in a frame: 312 in PAL, 262 in NTSC *)
Definition lines (i : info) : Z := if i_ntsc i then 262 else 312.

(* [song_calls n s l t]: n frames after s, with anything done in between that keeps the machine, the state is t; the player
   has been called in the scanlines l, counted from s *)
Inductive song_calls : nat -> asap -> list Z -> asap -> Prop :=
| song_start s t : same_machine s t -> song_calls 0 s [] t
| song_frame n s l t l1 cycles t1 u : song_calls n s l t -> frame_calls t l1 -> do_frame t = Ok (cycles, t1) -> same_machine t1 u ->
    song_calls (S n) s (l ++ map (Z.add (Z.of_nat n * lines (m_info s))) l1) u.

(* 0, f, 2f, ... below n *)
Definition multiples (f n : Z) : list Z := filter (fun j => j mod f =? 0) (zrange (Z.to_nat n)).
