(* Model of classes PokeyChannel, Pokey and PokeyPair (pokey.fu; asap.c:164-270 and 6953-7562).

   Simplifications, stated once:
   - deltaBuffer and deltaBufferLength are one list (Initialize allocates the buffer with that length and
     nothing else changes either); the buffer of a Pokey never initialised (NULL) is the empty list.
   - malloc never fails.
   - sincLookup, filled from floating-point sines by the constructor, is an arbitrary table; it is indexed
     with 0..1023 and 0..31 only.
   - Left shifts of negative numbers and right shifts of negative numbers are the two's complement
     operations every C compiler implements.
   - Signed overflow is checked where sample-rate dependent or accumulating quantities are computed; cycle
     numbers, periods and indices derived from them are unbounded integers. *)
From Verif Require Import Base Loop.

(* asap.c:164-173 *)
Record channel := mkChannel {
  ch_audf : Z;
  ch_audc : Z;
  ch_periodCycles : Z;
  ch_tickCycle : Z;
  ch_timerCycle : Z;
  ch_mute : Z;
  ch_out : Z;
  ch_delta : Z
}.

Definition set_ch_audf (v : Z) (s : channel) : channel := mkChannel v (ch_audc s) (ch_periodCycles s) (ch_tickCycle s) (ch_timerCycle s) (ch_mute s) (ch_out s) (ch_delta s).
Definition set_ch_audc (v : Z) (s : channel) : channel := mkChannel (ch_audf s) v (ch_periodCycles s) (ch_tickCycle s) (ch_timerCycle s) (ch_mute s) (ch_out s) (ch_delta s).
Definition set_ch_periodCycles (v : Z) (s : channel) : channel := mkChannel (ch_audf s) (ch_audc s) v (ch_tickCycle s) (ch_timerCycle s) (ch_mute s) (ch_out s) (ch_delta s).
Definition set_ch_tickCycle (v : Z) (s : channel) : channel := mkChannel (ch_audf s) (ch_audc s) (ch_periodCycles s) v (ch_timerCycle s) (ch_mute s) (ch_out s) (ch_delta s).
Definition set_ch_timerCycle (v : Z) (s : channel) : channel := mkChannel (ch_audf s) (ch_audc s) (ch_periodCycles s) (ch_tickCycle s) v (ch_mute s) (ch_out s) (ch_delta s).
Definition set_ch_mute (v : Z) (s : channel) : channel := mkChannel (ch_audf s) (ch_audc s) (ch_periodCycles s) (ch_tickCycle s) (ch_timerCycle s) v (ch_out s) (ch_delta s).
Definition set_ch_out (v : Z) (s : channel) : channel := mkChannel (ch_audf s) (ch_audc s) (ch_periodCycles s) (ch_tickCycle s) (ch_timerCycle s) (ch_mute s) v (ch_delta s).
Definition set_ch_delta (v : Z) (s : channel) : channel := mkChannel (ch_audf s) (ch_audc s) (ch_periodCycles s) (ch_tickCycle s) (ch_timerCycle s) (ch_mute s) (ch_out s) v.

(* asap.c:189-206; channels[4] is ch0..ch3 *)
Record pokey := mkPokey {
  pk_ch0 : channel;
  pk_ch1 : channel;
  pk_ch2 : channel;
  pk_ch3 : channel;
  pk_audctl : Z;
  pk_skctl : Z;
  pk_irqst : Z;
  pk_init : bool;
  pk_divCycles : Z;
  pk_reloadCycles1 : Z;
  pk_reloadCycles3 : Z;
  pk_polyIndex : Z;
  pk_deltaBuffer : list Z;
  pk_sumDACInputs : Z;
  pk_sumDACOutputs : Z;
  pk_iirRate : Z;
  pk_iirAcc : Z;
  pk_trailing : Z
}.

Definition set_pk_ch0 (v : channel) (s : pokey) : pokey := mkPokey v (pk_ch1 s) (pk_ch2 s) (pk_ch3 s) (pk_audctl s) (pk_skctl s) (pk_irqst s) (pk_init s) (pk_divCycles s) (pk_reloadCycles1 s) (pk_reloadCycles3 s) (pk_polyIndex s) (pk_deltaBuffer s) (pk_sumDACInputs s) (pk_sumDACOutputs s) (pk_iirRate s) (pk_iirAcc s) (pk_trailing s).
Definition set_pk_ch1 (v : channel) (s : pokey) : pokey := mkPokey (pk_ch0 s) v (pk_ch2 s) (pk_ch3 s) (pk_audctl s) (pk_skctl s) (pk_irqst s) (pk_init s) (pk_divCycles s) (pk_reloadCycles1 s) (pk_reloadCycles3 s) (pk_polyIndex s) (pk_deltaBuffer s) (pk_sumDACInputs s) (pk_sumDACOutputs s) (pk_iirRate s) (pk_iirAcc s) (pk_trailing s).
Definition set_pk_ch2 (v : channel) (s : pokey) : pokey := mkPokey (pk_ch0 s) (pk_ch1 s) v (pk_ch3 s) (pk_audctl s) (pk_skctl s) (pk_irqst s) (pk_init s) (pk_divCycles s) (pk_reloadCycles1 s) (pk_reloadCycles3 s) (pk_polyIndex s) (pk_deltaBuffer s) (pk_sumDACInputs s) (pk_sumDACOutputs s) (pk_iirRate s) (pk_iirAcc s) (pk_trailing s).
Definition set_pk_ch3 (v : channel) (s : pokey) : pokey := mkPokey (pk_ch0 s) (pk_ch1 s) (pk_ch2 s) v (pk_audctl s) (pk_skctl s) (pk_irqst s) (pk_init s) (pk_divCycles s) (pk_reloadCycles1 s) (pk_reloadCycles3 s) (pk_polyIndex s) (pk_deltaBuffer s) (pk_sumDACInputs s) (pk_sumDACOutputs s) (pk_iirRate s) (pk_iirAcc s) (pk_trailing s).
Definition set_pk_audctl (v : Z) (s : pokey) : pokey := mkPokey (pk_ch0 s) (pk_ch1 s) (pk_ch2 s) (pk_ch3 s) v (pk_skctl s) (pk_irqst s) (pk_init s) (pk_divCycles s) (pk_reloadCycles1 s) (pk_reloadCycles3 s) (pk_polyIndex s) (pk_deltaBuffer s) (pk_sumDACInputs s) (pk_sumDACOutputs s) (pk_iirRate s) (pk_iirAcc s) (pk_trailing s).
Definition set_pk_skctl (v : Z) (s : pokey) : pokey := mkPokey (pk_ch0 s) (pk_ch1 s) (pk_ch2 s) (pk_ch3 s) (pk_audctl s) v (pk_irqst s) (pk_init s) (pk_divCycles s) (pk_reloadCycles1 s) (pk_reloadCycles3 s) (pk_polyIndex s) (pk_deltaBuffer s) (pk_sumDACInputs s) (pk_sumDACOutputs s) (pk_iirRate s) (pk_iirAcc s) (pk_trailing s).
Definition set_pk_irqst (v : Z) (s : pokey) : pokey := mkPokey (pk_ch0 s) (pk_ch1 s) (pk_ch2 s) (pk_ch3 s) (pk_audctl s) (pk_skctl s) v (pk_init s) (pk_divCycles s) (pk_reloadCycles1 s) (pk_reloadCycles3 s) (pk_polyIndex s) (pk_deltaBuffer s) (pk_sumDACInputs s) (pk_sumDACOutputs s) (pk_iirRate s) (pk_iirAcc s) (pk_trailing s).
Definition set_pk_init (v : bool) (s : pokey) : pokey := mkPokey (pk_ch0 s) (pk_ch1 s) (pk_ch2 s) (pk_ch3 s) (pk_audctl s) (pk_skctl s) (pk_irqst s) v (pk_divCycles s) (pk_reloadCycles1 s) (pk_reloadCycles3 s) (pk_polyIndex s) (pk_deltaBuffer s) (pk_sumDACInputs s) (pk_sumDACOutputs s) (pk_iirRate s) (pk_iirAcc s) (pk_trailing s).
Definition set_pk_divCycles (v : Z) (s : pokey) : pokey := mkPokey (pk_ch0 s) (pk_ch1 s) (pk_ch2 s) (pk_ch3 s) (pk_audctl s) (pk_skctl s) (pk_irqst s) (pk_init s) v (pk_reloadCycles1 s) (pk_reloadCycles3 s) (pk_polyIndex s) (pk_deltaBuffer s) (pk_sumDACInputs s) (pk_sumDACOutputs s) (pk_iirRate s) (pk_iirAcc s) (pk_trailing s).
Definition set_pk_reloadCycles1 (v : Z) (s : pokey) : pokey := mkPokey (pk_ch0 s) (pk_ch1 s) (pk_ch2 s) (pk_ch3 s) (pk_audctl s) (pk_skctl s) (pk_irqst s) (pk_init s) (pk_divCycles s) v (pk_reloadCycles3 s) (pk_polyIndex s) (pk_deltaBuffer s) (pk_sumDACInputs s) (pk_sumDACOutputs s) (pk_iirRate s) (pk_iirAcc s) (pk_trailing s).
Definition set_pk_reloadCycles3 (v : Z) (s : pokey) : pokey := mkPokey (pk_ch0 s) (pk_ch1 s) (pk_ch2 s) (pk_ch3 s) (pk_audctl s) (pk_skctl s) (pk_irqst s) (pk_init s) (pk_divCycles s) (pk_reloadCycles1 s) v (pk_polyIndex s) (pk_deltaBuffer s) (pk_sumDACInputs s) (pk_sumDACOutputs s) (pk_iirRate s) (pk_iirAcc s) (pk_trailing s).
Definition set_pk_polyIndex (v : Z) (s : pokey) : pokey := mkPokey (pk_ch0 s) (pk_ch1 s) (pk_ch2 s) (pk_ch3 s) (pk_audctl s) (pk_skctl s) (pk_irqst s) (pk_init s) (pk_divCycles s) (pk_reloadCycles1 s) (pk_reloadCycles3 s) v (pk_deltaBuffer s) (pk_sumDACInputs s) (pk_sumDACOutputs s) (pk_iirRate s) (pk_iirAcc s) (pk_trailing s).
Definition set_pk_deltaBuffer (v : list Z) (s : pokey) : pokey := mkPokey (pk_ch0 s) (pk_ch1 s) (pk_ch2 s) (pk_ch3 s) (pk_audctl s) (pk_skctl s) (pk_irqst s) (pk_init s) (pk_divCycles s) (pk_reloadCycles1 s) (pk_reloadCycles3 s) (pk_polyIndex s) v (pk_sumDACInputs s) (pk_sumDACOutputs s) (pk_iirRate s) (pk_iirAcc s) (pk_trailing s).
Definition set_pk_sumDACInputs (v : Z) (s : pokey) : pokey := mkPokey (pk_ch0 s) (pk_ch1 s) (pk_ch2 s) (pk_ch3 s) (pk_audctl s) (pk_skctl s) (pk_irqst s) (pk_init s) (pk_divCycles s) (pk_reloadCycles1 s) (pk_reloadCycles3 s) (pk_polyIndex s) (pk_deltaBuffer s) v (pk_sumDACOutputs s) (pk_iirRate s) (pk_iirAcc s) (pk_trailing s).
Definition set_pk_sumDACOutputs (v : Z) (s : pokey) : pokey := mkPokey (pk_ch0 s) (pk_ch1 s) (pk_ch2 s) (pk_ch3 s) (pk_audctl s) (pk_skctl s) (pk_irqst s) (pk_init s) (pk_divCycles s) (pk_reloadCycles1 s) (pk_reloadCycles3 s) (pk_polyIndex s) (pk_deltaBuffer s) (pk_sumDACInputs s) v (pk_iirRate s) (pk_iirAcc s) (pk_trailing s).
Definition set_pk_iirRate (v : Z) (s : pokey) : pokey := mkPokey (pk_ch0 s) (pk_ch1 s) (pk_ch2 s) (pk_ch3 s) (pk_audctl s) (pk_skctl s) (pk_irqst s) (pk_init s) (pk_divCycles s) (pk_reloadCycles1 s) (pk_reloadCycles3 s) (pk_polyIndex s) (pk_deltaBuffer s) (pk_sumDACInputs s) (pk_sumDACOutputs s) v (pk_iirAcc s) (pk_trailing s).
Definition set_pk_iirAcc (v : Z) (s : pokey) : pokey := mkPokey (pk_ch0 s) (pk_ch1 s) (pk_ch2 s) (pk_ch3 s) (pk_audctl s) (pk_skctl s) (pk_irqst s) (pk_init s) (pk_divCycles s) (pk_reloadCycles1 s) (pk_reloadCycles3 s) (pk_polyIndex s) (pk_deltaBuffer s) (pk_sumDACInputs s) (pk_sumDACOutputs s) (pk_iirRate s) v (pk_trailing s).
Definition set_pk_trailing (v : Z) (s : pokey) : pokey := mkPokey (pk_ch0 s) (pk_ch1 s) (pk_ch2 s) (pk_ch3 s) (pk_audctl s) (pk_skctl s) (pk_irqst s) (pk_init s) (pk_divCycles s) (pk_reloadCycles1 s) (pk_reloadCycles3 s) (pk_polyIndex s) (pk_deltaBuffer s) (pk_sumDACInputs s) (pk_sumDACOutputs s) (pk_iirRate s) (pk_iirAcc s) v.

(* asap.c:244-256; the two polynomial tables are constants, see poly9Lookup and poly17Lookup *)
Record pokeyPair := mkPokeyPair {
  pp_extraPokeyMask : Z;
  pp_basePokey : pokey;
  pp_extraPokey : pokey;
  pp_sampleRate : Z;
  pp_sincLookup : Z -> Z -> Z;
  pp_sampleFactor : Z;
  pp_sampleOffset : Z;
  pp_readySamplesStart : Z;
  pp_readySamplesEnd : Z
}.

Definition set_pp_extraPokeyMask (v : Z) (s : pokeyPair) : pokeyPair := mkPokeyPair v (pp_basePokey s) (pp_extraPokey s) (pp_sampleRate s) (pp_sincLookup s) (pp_sampleFactor s) (pp_sampleOffset s) (pp_readySamplesStart s) (pp_readySamplesEnd s).
Definition set_pp_basePokey (v : pokey) (s : pokeyPair) : pokeyPair := mkPokeyPair (pp_extraPokeyMask s) v (pp_extraPokey s) (pp_sampleRate s) (pp_sincLookup s) (pp_sampleFactor s) (pp_sampleOffset s) (pp_readySamplesStart s) (pp_readySamplesEnd s).
Definition set_pp_extraPokey (v : pokey) (s : pokeyPair) : pokeyPair := mkPokeyPair (pp_extraPokeyMask s) (pp_basePokey s) v (pp_sampleRate s) (pp_sincLookup s) (pp_sampleFactor s) (pp_sampleOffset s) (pp_readySamplesStart s) (pp_readySamplesEnd s).
Definition set_pp_sampleRate (v : Z) (s : pokeyPair) : pokeyPair := mkPokeyPair (pp_extraPokeyMask s) (pp_basePokey s) (pp_extraPokey s) v (pp_sincLookup s) (pp_sampleFactor s) (pp_sampleOffset s) (pp_readySamplesStart s) (pp_readySamplesEnd s).
Definition set_pp_sincLookup (v : Z -> Z -> Z) (s : pokeyPair) : pokeyPair := mkPokeyPair (pp_extraPokeyMask s) (pp_basePokey s) (pp_extraPokey s) (pp_sampleRate s) v (pp_sampleFactor s) (pp_sampleOffset s) (pp_readySamplesStart s) (pp_readySamplesEnd s).
Definition set_pp_sampleFactor (v : Z) (s : pokeyPair) : pokeyPair := mkPokeyPair (pp_extraPokeyMask s) (pp_basePokey s) (pp_extraPokey s) (pp_sampleRate s) (pp_sincLookup s) v (pp_sampleOffset s) (pp_readySamplesStart s) (pp_readySamplesEnd s).
Definition set_pp_sampleOffset (v : Z) (s : pokeyPair) : pokeyPair := mkPokeyPair (pp_extraPokeyMask s) (pp_basePokey s) (pp_extraPokey s) (pp_sampleRate s) (pp_sincLookup s) (pp_sampleFactor s) v (pp_readySamplesStart s) (pp_readySamplesEnd s).
Definition set_pp_readySamplesStart (v : Z) (s : pokeyPair) : pokeyPair := mkPokeyPair (pp_extraPokeyMask s) (pp_basePokey s) (pp_extraPokey s) (pp_sampleRate s) (pp_sincLookup s) (pp_sampleFactor s) (pp_sampleOffset s) v (pp_readySamplesEnd s).
Definition set_pp_readySamplesEnd (v : Z) (s : pokeyPair) : pokeyPair := mkPokeyPair (pp_extraPokeyMask s) (pp_basePokey s) (pp_extraPokey s) (pp_sampleRate s) (pp_sincLookup s) (pp_sampleFactor s) (pp_sampleOffset s) (pp_readySamplesStart s) v.

(* The constant NEVER of pokey.fu, 0x800000 *)
Definition never : Z := 8388608.

(* channels[i], 0 <= i < 4 *)
Definition chan (p : pokey) (i : Z) : channel :=
  if i =? 0 then pk_ch0 p else if i =? 1 then pk_ch1 p else if i =? 2 then pk_ch2 p else pk_ch3 p.
Definition set_chan (i : Z) (c : channel) (p : pokey) : pokey :=
  if i =? 0 then set_pk_ch0 c p else if i =? 1 then set_pk_ch1 c p else if i =? 2 then set_pk_ch2 c p else set_pk_ch3 c p.
Definition upd_chan (i : Z) (f : channel -> channel) (p : pokey) : pokey := set_chan i (f (chan p i)) p.

(* asap.c:209-212 Pokey_COMPRESSED_SUMS *)
Definition compressed_sums : list Z :=
  [0; 35; 73; 111; 149; 189; 228; 266; 304; 342; 379; 415; 450; 484; 516; 546;
   575; 602; 628; 652; 674; 695; 715; 733; 750; 766; 782; 796; 809; 822; 834; 846;
   856; 867; 876; 886; 894; 903; 911; 918; 926; 933; 939; 946; 952; 958; 963; 969;
   974; 979; 984; 988; 993; 997; 1001; 1005; 1009; 1013; 1016; 1019; 1023].

(* asap.c:7434-7438 PokeyPair_Construct, the 9-bit register *)
Fixpoint poly9_table (n : nat) (reg : Z) : list Z :=
  match n with
  | O => []
  | S k => let reg := Z.shiftl (Z.land (Z.lxor (Z.shiftr reg 5) reg) 1) 8 + Z.shiftr reg 1 in
           u8 reg :: poly9_table k reg
  end.
Definition poly9Lookup : list Z := poly9_table 511 511.

(* asap.c:7439-7443 PokeyPair_Construct, the 17-bit register, eight steps at a time *)
Fixpoint poly17_table (n : nat) (reg : Z) : list Z :=
  match n with
  | O => []
  | S k => let reg := Z.shiftl (Z.land (Z.lxor (Z.shiftr reg 5) reg) 255) 9 + Z.shiftr reg 8 in
           u8 (Z.shiftr reg 1) :: poly17_table k reg
  end.
Definition poly17Lookup : list Z := poly17_table (Z.to_nat 16385) 131071.

(* asap.c:6953-6963 PokeyChannel_Initialize *)
Definition channel_initialize : channel := mkChannel 0 0 28 never never 0 0 0.

(* asap.c:7099-7109 Pokey_AddExternalDelta.  [deltaBuffer[i + j] += ...] reads and writes the same element;
   out of bounds it is reported as a write. *)
Definition get_for_update (l : list Z) (i : Z) : outcome Z := match get l i with UB _ => UB UbWrite | r => r end.
Fixpoint add_sinc (n : nat) (j : Z) (row : Z -> Z) (delta : Z) (buf : list Z) (i : Z) : outcome (list Z) :=
  match n with
  | O => Ok buf
  | S k =>
    d <- get_for_update buf (i + j) ;;
    d <- chk (d + delta * row j) ;;
    buf <- set_nth buf (i + j) d ;;
    add_sinc k (j + 1) row delta buf i
  end.

Definition add_external_delta (pp : pokeyPair) (cycle delta : Z) (p : pokey) : outcome pokey :=
  if delta =? 0 then Ok p
  else
    i <- chk (cycle * pp_sampleFactor pp + pp_sampleOffset pp) ;;
    let fraction := Z.land (Z.shiftr i 8) 1023 in
    let i := Z.shiftr i 18 in
    let delta := Z.shiftr delta 14 in
    buf <- add_sinc 32 0 (pp_sincLookup pp fraction) delta (pk_deltaBuffer p) i ;;
    Ok (set_pk_deltaBuffer buf p).

(* asap.c:7091-7097 Pokey_AddDelta *)
Definition add_delta (pp : pokeyPair) (cycle delta : Z) (p : pokey) : outcome pokey :=
  let p := set_pk_sumDACInputs (pk_sumDACInputs p + delta) p in
  v <- get compressed_sums (pk_sumDACInputs p) ;;
  let newOutput := Z.shiftl v 16 in
  d <- chk (newOutput - pk_sumDACOutputs p) ;;
  p <- add_external_delta pp cycle d p ;;
  Ok (set_pk_sumDACOutputs newOutput p).

(* asap.c:6965-6969 PokeyChannel_Slope, for channels[i] *)
Definition slope (pp : pokeyPair) (i cycle : Z) (p : pokey) : outcome pokey :=
  let p := upd_chan i (fun c => set_ch_delta (- ch_delta c) c) p in
  add_delta pp cycle (ch_delta (chan p i)) p.

(* shift count of 1 << n: negative counts are undefined *)
Definition shift_count (n : Z) : outcome Z := if n <? 0 then UB UbOverflow else Ok n.

(* asap.c:6971-7002 PokeyChannel_DoTick, for channels[ch]; the C operator % is Z.rem *)
Definition do_tick (pp : pokeyPair) (ch cycle : Z) (p : pokey) : outcome pokey :=
  let p := upd_chan ch (fun c => set_ch_tickCycle (ch_tickCycle c + ch_periodCycles c) c) p in
  let audc := ch_audc (chan p ch) in
  let out := ch_out (chan p ch) in
  let flip := upd_chan ch (set_ch_out (Z.lxor out 1)) p in
  if Z.land audc 176 =? 160 then slope pp ch cycle flip
  else if negb (Z.land audc 16 =? 0) || pk_init p then Ok p
  else
    let poly := cycle + pk_polyIndex p - ch in
    skip <- (if audc <? 128
             then n <- shift_count (Z.rem poly 31) ;; Ok (Z.land 1706902752 (Z.shiftl 1 n) =? 0)
             else Ok false) ;;
    if (skip : bool) then Ok p
    else if negb (Z.land audc 32 =? 0) then slope pp ch cycle flip
    else
      newOut <- (if negb (Z.land audc 64 =? 0) then
                   n <- shift_count (Z.rem poly 15) ;; Ok (Z.shiftr 21360 n)
                 else if pk_audctl p <? 128 then
                   let poly := Z.rem poly 131071 in
                   v <- get poly17Lookup (Z.shiftr poly 3) ;; Ok (Z.shiftr v (Z.land poly 7))
                 else get poly9Lookup (Z.rem poly 511)) ;;
      let newOut := Z.land newOut 1 in
      if out =? newOut then Ok p
      else slope pp ch cycle (upd_chan ch (set_ch_out newOut) p).

(* asap.c:7004-7008 PokeyChannel_DoStimer *)
Definition do_stimer (cycle : Z) (c : channel) : channel :=
  if ch_tickCycle c =? never then c else set_ch_tickCycle (cycle + ch_periodCycles c) c.

(* asap.c:7010-7021 PokeyChannel_SetMute *)
Definition set_mute (enable : bool) (mask cycle : Z) (c : channel) : channel :=
  if enable then set_ch_tickCycle never (set_ch_mute (Z.lor (ch_mute c) mask) c)
  else
    let c := set_ch_mute (Z.land (ch_mute c) (Z.lnot mask)) c in
    if (ch_mute c =? 0) && (ch_tickCycle c =? never) then set_ch_tickCycle cycle c else c.

(* asap.c:7111-7147 Pokey_GenerateUntilCycle.  One iteration of its loop: *)
Definition next_tick (cycleLimit : Z) (p : pokey) : Z :=
  Z.min (Z.min (Z.min (Z.min cycleLimit (ch_tickCycle (pk_ch0 p))) (ch_tickCycle (pk_ch1 p)))
               (ch_tickCycle (pk_ch2 p))) (ch_tickCycle (pk_ch3 p)).

Definition tick2 (pp : pokeyPair) (cycle : Z) (p : pokey) : outcome pokey :=
  if cycle =? ch_tickCycle (pk_ch2 p) then
    p <- (if negb (Z.land (pk_audctl p) 4 =? 0) && (0 <? ch_delta (pk_ch0 p)) && (ch_mute (pk_ch0 p) =? 0)
          then slope pp 0 cycle p else Ok p) ;;
    do_tick pp 2 cycle p
  else Ok p.
Definition tick3 (pp : pokeyPair) (cycle : Z) (p : pokey) : outcome pokey :=
  if cycle =? ch_tickCycle (pk_ch3 p) then
    let p := if negb (Z.land (pk_audctl p) 8 =? 0) then upd_chan 2 (set_ch_tickCycle (cycle + pk_reloadCycles3 p)) p else p in
    p <- (if negb (Z.land (pk_audctl p) 2 =? 0) && (0 <? ch_delta (pk_ch1 p)) && (ch_mute (pk_ch1 p) =? 0)
          then slope pp 1 cycle p else Ok p) ;;
    do_tick pp 3 cycle p
  else Ok p.
Definition tick0 (pp : pokeyPair) (cycle : Z) (p : pokey) : outcome pokey :=
  if cycle =? ch_tickCycle (pk_ch0 p) then
    let p := if Z.land (pk_skctl p) 136 =? 8
             then upd_chan 1 (fun c => set_ch_tickCycle (cycle + ch_periodCycles c) c) p else p in
    do_tick pp 0 cycle p
  else Ok p.
Definition tick1 (pp : pokeyPair) (cycle : Z) (p : pokey) : outcome pokey :=
  if cycle =? ch_tickCycle (pk_ch1 p) then
    let p := if negb (Z.land (pk_audctl p) 16 =? 0) then upd_chan 0 (set_ch_tickCycle (cycle + pk_reloadCycles1 p)) p
             else if negb (Z.land (pk_skctl p) 8 =? 0)
                  then upd_chan 0 (fun c => set_ch_tickCycle (cycle + ch_periodCycles c) c) p else p in
    do_tick pp 1 cycle p
  else Ok p.

Definition generate_step (pp : pokeyPair) (cycleLimit : Z) (p : pokey) : outcome (pokey + pokey) :=
  let cycle := next_tick cycleLimit p in
  if cycle =? cycleLimit then leave p
  else
    p <- tick2 pp cycle p ;;
    p <- tick3 pp cycle p ;;
    p <- tick0 pp cycle p ;;
    p <- tick1 pp cycle p ;;
    continue_ p.

(* The fuel allows one iteration per cycle. *)
Definition generate_until (pp : pokeyPair) (cycleLimit : Z) (p : pokey) : outcome pokey :=
  loopZ (cycleLimit - next_tick cycleLimit p + 1) (generate_step pp cycleLimit) p.

(* asap.c:7023-7045 PokeyChannel_SetAudc, for channels[i] *)
Definition set_audc (pp : pokeyPair) (i data cycle : Z) (p : pokey) : outcome pokey :=
  if ch_audc (chan p i) =? data then Ok p
  else
    p <- generate_until pp cycle p ;;
    let p := upd_chan i (set_ch_audc data) p in
    let delta := ch_delta (chan p i) in
    let muted := negb (Z.land (ch_mute (chan p i)) 2 =? 0) in
    let volume := Z.land data 15 in
    if negb (Z.land data 16 =? 0) then
      p <- (if muted then Ok p else add_delta pp cycle (if 0 <? delta then volume - delta else volume) p) ;;
      Ok (upd_chan i (set_ch_delta volume) p)
    else if 0 <? delta then
      p <- (if muted then Ok p else add_delta pp cycle (volume - delta) p) ;;
      Ok (upd_chan i (set_ch_delta volume) p)
    else Ok (upd_chan i (set_ch_delta (- volume)) p).

(* asap.c:7047-7051 PokeyChannel_EndFrame *)
Definition channel_end_frame (cycle : Z) (c : channel) : channel :=
  if ch_timerCycle c =? never then c else set_ch_timerCycle (ch_timerCycle c - cycle) c.

(* asap.c:7063-7067 Pokey_StartFrame: memcpy is undefined for overlapping ranges *)
Definition start_frame (p : pokey) : outcome pokey :=
  let n := len (pk_deltaBuffer p) - pk_trailing p in
  tail <- get_range (pk_deltaBuffer p) (pk_trailing p) (len (pk_deltaBuffer p)) ;;
  if (0 <? n) && (pk_trailing p <? n) then UB UbOverlap
  else Ok (set_pk_deltaBuffer (tail ++ repeat 0 (Z.to_nat (pk_trailing p))) p).

(* asap.c:7069-7089 Pokey_Initialize; division by a zero sample rate and a negative buffer size are undefined *)
Definition pokey_initialize (sampleRate : Z) (p : pokey) : outcome pokey :=
  let n := Z.quot (sampleRate * 312 * 114) 1773447 + 32 + 2 in
  if n <? 0 then UB UbNegSize
  else if sampleRate =? 0 then UB UbOverflow
  else
    start_frame
      (mkPokey channel_initialize channel_initialize channel_initialize channel_initialize
         0 3 255 false 28 28 28 60948015 (repeat 0 (Z.to_nat n)) 0 (pk_sumDACOutputs p)
         (Z.quot 264600 sampleRate) 0 n).

Definition for_channels (f : channel -> channel) (p : pokey) : pokey :=
  upd_chan 3 f (upd_chan 2 f (upd_chan 1 f (upd_chan 0 f p))).

(* asap.c:7149-7161 Pokey_EndFrame *)
Definition pokey_end_frame (pp : pokeyPair) (cycle : Z) (p : pokey) : outcome pokey :=
  p <- generate_until pp cycle p ;;
  let polyIndex := pk_polyIndex p + cycle in
  let m := if negb (Z.land (pk_audctl p) 128 =? 0) then 237615 else 60948015 in
  let polyIndex := if 2 * m <=? polyIndex then polyIndex - m else polyIndex in
  Ok (for_channels (fun c => if ch_tickCycle c =? never then c else set_ch_tickCycle (ch_tickCycle c - cycle) c)
        (set_pk_polyIndex polyIndex p)).

(* asap.c:7163-7169 Pokey_IsSilent *)
Definition pokey_is_silent (p : pokey) : bool :=
  forallb (fun c => Z.land (ch_audc c) 15 =? 0) [pk_ch0 p; pk_ch1 p; pk_ch2 p; pk_ch3 p].

(* asap.c:7171-7175 Pokey_Mute *)
Definition pokey_mute (mask : Z) (p : pokey) : pokey :=
  let m i := set_mute (negb (Z.land mask (Z.shiftl 1 i) =? 0)) 2 0 in
  upd_chan 3 (m 3) (upd_chan 2 (m 2) (upd_chan 1 (m 1) (upd_chan 0 (m 0) p))).

(* asap.c:7177-7185 Pokey_InitMute *)
Definition init_mute (cycle : Z) (p : pokey) : pokey :=
  let init := pk_init p in
  let audctl := pk_audctl p in
  let p := upd_chan 0 (set_mute (init && (Z.land audctl 64 =? 0)) 1 cycle) p in
  let p := upd_chan 1 (set_mute (init && negb (Z.land audctl 80 =? 80)) 1 cycle) p in
  let p := upd_chan 2 (set_mute (init && (Z.land audctl 32 =? 0)) 1 cycle) p in
  upd_chan 3 (set_mute (init && negb (Z.land audctl 40 =? 40)) 1 cycle) p.

(* asap.c:7191-7346 Pokey_Poke, the writes that compute periods.  [pair] is 0 for channels 0, 1
   (audctl bits 64 and 16, reloadCycles1) and 2 for channels 2, 3 (audctl bits 32 and 8, reloadCycles3).
   AUDF of the lower channel: cases 0 (7191-7214) and 4 (7241-7264) *)
Definition set_period (v : Z) : channel -> channel := set_ch_periodCycles v.
Definition poke_audf0 (data cycle : Z) (pp : pokeyPair) (p : pokey) : outcome pokey :=
  if data =? ch_audf (pk_ch0 p) then Ok p
  else
    p <- generate_until pp cycle p ;;
    let p := upd_chan 0 (set_ch_audf data) p in
    let hi := Z.shiftl (ch_audf (pk_ch1 p)) 8 in
    let div := pk_divCycles p in
    match Z.land (pk_audctl p) 80 with
    | 0 => Ok (upd_chan 0 (set_period (div * (data + 1))) p)
    | 16 => Ok (set_pk_reloadCycles1 (div * (data + 1)) (upd_chan 1 (set_period (div * (data + hi + 1))) p))
    | 64 => Ok (upd_chan 0 (set_period (data + 4)) p)
    | 80 => Ok (set_pk_reloadCycles1 (data + 4) (upd_chan 1 (set_period (data + hi + 7)) p))
    | _ => UB UbAbort
    end.
Definition poke_audf2 (data cycle : Z) (pp : pokeyPair) (p : pokey) : outcome pokey :=
  if data =? ch_audf (pk_ch2 p) then Ok p
  else
    p <- generate_until pp cycle p ;;
    let p := upd_chan 2 (set_ch_audf data) p in
    let hi := Z.shiftl (ch_audf (pk_ch3 p)) 8 in
    let div := pk_divCycles p in
    match Z.land (pk_audctl p) 40 with
    | 0 => Ok (upd_chan 2 (set_period (div * (data + 1))) p)
    | 8 => Ok (set_pk_reloadCycles3 (div * (data + 1)) (upd_chan 3 (set_period (div * (data + hi + 1))) p))
    | 32 => Ok (upd_chan 2 (set_period (data + 4)) p)
    | 40 => Ok (set_pk_reloadCycles3 (data + 4) (upd_chan 3 (set_period (data + hi + 7)) p))
    | _ => UB UbAbort
    end.
(* AUDF of the upper channel: cases 2 (7218-7237) and 6 (7268-7287) *)
Definition poke_audf1 (data cycle : Z) (pp : pokeyPair) (p : pokey) : outcome pokey :=
  if data =? ch_audf (pk_ch1 p) then Ok p
  else
    p <- generate_until pp cycle p ;;
    let p := upd_chan 1 (set_ch_audf data) p in
    let lo := ch_audf (pk_ch0 p) in
    let div := pk_divCycles p in
    match Z.land (pk_audctl p) 80 with
    | 0 | 64 => Ok (upd_chan 1 (set_period (div * (data + 1))) p)
    | 16 => Ok (upd_chan 1 (set_period (div * (lo + Z.shiftl data 8 + 1))) p)
    | 80 => Ok (upd_chan 1 (set_period (lo + Z.shiftl data 8 + 7)) p)
    | _ => UB UbAbort
    end.
Definition poke_audf3 (data cycle : Z) (pp : pokeyPair) (p : pokey) : outcome pokey :=
  if data =? ch_audf (pk_ch3 p) then Ok p
  else
    p <- generate_until pp cycle p ;;
    let p := upd_chan 3 (set_ch_audf data) p in
    let lo := ch_audf (pk_ch2 p) in
    let div := pk_divCycles p in
    match Z.land (pk_audctl p) 40 with
    | 0 | 32 => Ok (upd_chan 3 (set_period (div * (data + 1))) p)
    | 8 => Ok (upd_chan 3 (set_period (div * (lo + Z.shiftl data 8 + 1))) p)
    | 40 => Ok (upd_chan 3 (set_period (lo + Z.shiftl data 8 + 7)) p)
    | _ => UB UbAbort
    end.

(* AUDCTL: case 8 (7291-7342) *)
Definition audctl_pair0 (data : Z) (p : pokey) : outcome pokey :=
  let div := pk_divCycles p in
  let f0 := ch_audf (pk_ch0 p) in
  let f1 := ch_audf (pk_ch1 p) in
  match Z.land data 80 with
  | 0 => Ok (upd_chan 1 (set_period (div * (f1 + 1))) (upd_chan 0 (set_period (div * (f0 + 1))) p))
  | 16 => Ok (set_pk_reloadCycles1 (div * (f0 + 1))
           (upd_chan 1 (set_period (div * (f0 + Z.shiftl f1 8 + 1))) (upd_chan 0 (set_period (Z.shiftl div 8)) p)))
  | 64 => Ok (upd_chan 1 (set_period (div * (f1 + 1))) (upd_chan 0 (set_period (f0 + 4)) p))
  | 80 => Ok (set_pk_reloadCycles1 (f0 + 4)
           (upd_chan 1 (set_period (f0 + Z.shiftl f1 8 + 7)) (upd_chan 0 (set_period 256) p)))
  | _ => UB UbAbort
  end.
Definition audctl_pair2 (data : Z) (p : pokey) : outcome pokey :=
  let div := pk_divCycles p in
  let f2 := ch_audf (pk_ch2 p) in
  let f3 := ch_audf (pk_ch3 p) in
  match Z.land data 40 with
  | 0 => Ok (upd_chan 3 (set_period (div * (f3 + 1))) (upd_chan 2 (set_period (div * (f2 + 1))) p))
  | 8 => Ok (set_pk_reloadCycles3 (div * (f2 + 1))
           (upd_chan 3 (set_period (div * (f2 + Z.shiftl f3 8 + 1))) (upd_chan 2 (set_period (Z.shiftl div 8)) p)))
  | 32 => Ok (upd_chan 3 (set_period (div * (f3 + 1))) (upd_chan 2 (set_period (f2 + 4)) p))
  | 40 => Ok (set_pk_reloadCycles3 (f2 + 4)
           (upd_chan 3 (set_period (f2 + Z.shiftl f3 8 + 7)) (upd_chan 2 (set_period 256) p)))
  | _ => UB UbAbort
  end.
Definition poke_audctl (data cycle : Z) (pp : pokeyPair) (p : pokey) : outcome pokey :=
  if data =? pk_audctl p then Ok p
  else
    p <- generate_until pp cycle p ;;
    let p := set_pk_divCycles (if negb (Z.land data 1 =? 0) then 114 else 28) (set_pk_audctl data p) in
    p <- audctl_pair0 data p ;;
    p <- audctl_pair2 data p ;;
    Ok (init_mute cycle p).

(* IRQEN: case 14 (7347-7365), for one timer i of 3, 1, 0 (the loop halves i) *)
Definition first_timer_step (cycle period t : Z) : outcome (Z + Z) :=
  if t <? cycle then continue_ (t + period) else leave t.
Definition first_timer (cycle period t : Z) : outcome Z :=
  loopZ (cycle - t + 1) (first_timer_step cycle period) t.
Definition irqen_channel (data cycle i : Z) (sp : Z * pokey) : outcome (Z * pokey) :=
  let '(next, p) := sp in
  let c := chan p i in
  if negb (Z.land (Z.land data (pk_irqst p)) (i + 1) =? 0) then
    if ch_timerCycle c =? never then
      t <- first_timer cycle (ch_periodCycles c) (ch_tickCycle c) ;;
      Ok (Z.min next t, upd_chan i (set_ch_timerCycle t) p)
    else Ok (next, p)
  else Ok (next, upd_chan i (set_ch_timerCycle never) p).
Definition poke_irqen (data cycle : Z) (p : pokey) : outcome (Z * pokey) :=
  let p := set_pk_irqst (Z.lor (pk_irqst p) (Z.lxor data 255)) p in
  s <- irqen_channel data cycle 3 (never, p) ;;
  s <- irqen_channel data cycle 1 s ;;
  irqen_channel data cycle 0 s.

(* SKCTL: case 15 (7366-7378) *)
Definition poke_skctl (data cycle : Z) (pp : pokeyPair) (p : pokey) : outcome pokey :=
  if data =? pk_skctl p then Ok p
  else
    p <- generate_until pp cycle p ;;
    let p := set_pk_skctl data p in
    let init := Z.land data 3 =? 0 in
    let p := if pk_init p && negb init
             then set_pk_polyIndex ((if negb (Z.land (pk_audctl p) 128 =? 0) then 237614 else 60948014) - cycle) p
             else p in
    let p := init_mute cycle (set_pk_init init p) in
    let m := set_mute (negb (Z.land data 16 =? 0)) 4 cycle in
    Ok (upd_chan 3 m (upd_chan 2 m p)).

(* asap.c:7187-7383 Pokey_Poke: returns nextEventCycle and the new state *)
Definition plain (m : outcome pokey) : outcome (Z * pokey) := p <- m ;; Ok (never, p).
Definition pokey_poke (pp : pokeyPair) (addr data cycle : Z) (p : pokey) : outcome (Z * pokey) :=
  match Z.land addr 15 with
  | 0 => plain (poke_audf0 data cycle pp p)
  | 1 => plain (set_audc pp 0 data cycle p)
  | 2 => plain (poke_audf1 data cycle pp p)
  | 3 => plain (set_audc pp 1 data cycle p)
  | 4 => plain (poke_audf2 data cycle pp p)
  | 5 => plain (set_audc pp 2 data cycle p)
  | 6 => plain (poke_audf3 data cycle pp p)
  | 7 => plain (set_audc pp 3 data cycle p)
  | 8 => plain (poke_audctl data cycle pp p)
  | 9 => Ok (never, for_channels (do_stimer cycle) p)
  | 14 => poke_irqen data cycle p
  | 15 => plain (poke_skctl data cycle pp p)
  | _ => Ok (never, p)
  end.

(* asap.c:7385-7399 Pokey_CheckIrq, for one timer i of 3, 1, 0 *)
Definition check_timer (cycle i : Z) (sp : Z * pokey) : Z * pokey :=
  let '(next, p) := sp in
  let timerCycle := ch_timerCycle (chan p i) in
  if timerCycle <=? cycle
  then (next, upd_chan i (set_ch_timerCycle never) (set_pk_irqst (Z.land (pk_irqst p) (Z.lnot (i + 1))) p))
  else (Z.min next timerCycle, p).
Definition pokey_check_irq (cycle next : Z) (p : pokey) : Z * pokey :=
  check_timer cycle 0 (check_timer cycle 1 (check_timer cycle 3 (next, p))).

(* asap.h:15-28 enum ASAPSampleFormat *)
Inductive sample_format := U8 | S16LE | S16BE.

(* asap.c:7401-7423 Pokey_StoreSample: the accumulator and the clamped sample, then the bytes stored *)
Definition clamp_sample (v : Z) : Z := if v <? -32767 then -32767 else if 32767 <? v then 32767 else v.
Definition sample_bytes (format : sample_format) (sample : Z) : list Z :=
  match format with
  | U8 => [u8 (Z.shiftr sample 8 + 128)]
  | S16LE => [u8 sample; u8 (Z.shiftr sample 8)]
  | S16BE => [u8 (Z.shiftr sample 8); u8 sample]
  end.
Definition next_sample (i : Z) (p : pokey) : outcome (Z * pokey) :=
  d <- get (pk_deltaBuffer p) i ;;
  k <- chk (pk_iirRate p * pk_iirAcc p) ;;
  e <- chk (d - Z.shiftr k 11) ;;
  acc <- chk (pk_iirAcc p + e) ;;
  Ok (clamp_sample (Z.shiftr acc 11), set_pk_iirAcc acc p).

(* buffer[offset..] = l, one checked store per byte *)
Fixpoint store_bytes (buffer : list Z) (offset : Z) (l : list Z) : outcome (list Z) :=
  match l with
  | [] => Ok buffer
  | b :: r => buffer <- set_nth buffer offset b ;; store_bytes buffer (offset + 1) r
  end.
Definition store_sample (buffer : list Z) (bufferOffset i : Z) (format : sample_format) (p : pokey)
  : outcome (list Z * Z * pokey) :=
  '(sample, p) <- next_sample i p ;;
  let b := sample_bytes format sample in
  buffer <- store_bytes buffer bufferOffset b ;;
  Ok (buffer, bufferOffset + len b, p).

(* asap.c:7473-7476 PokeyPair_GetSampleFactor *)
Definition get_sample_factor (sampleRate clock : Z) : outcome Z :=
  a <- chk (Z.shiftl sampleRate 13) ;;
  b <- chk (a + Z.shiftr clock 6) ;;
  Ok (Z.quot b (Z.shiftr clock 5)).

(* asap.c:7478-7488 PokeyPair_Initialize *)
Definition pair_initialize (ntsc stereo : bool) (sampleRate : Z) (pp : pokeyPair) : outcome pokeyPair :=
  base <- pokey_initialize sampleRate (pp_basePokey pp) ;;
  extra <- pokey_initialize sampleRate (pp_extraPokey pp) ;;
  factor <- get_sample_factor sampleRate (if ntsc then 1789772 else 1773447) ;;
  Ok (mkPokeyPair (if stereo then 16 else 0) base extra sampleRate (pp_sincLookup pp) factor 0 0 0).

(* asap.c:7490-7494 PokeyPair_Poke *)
Definition pair_poke (addr data cycle : Z) (pp : pokeyPair) : outcome (Z * pokeyPair) :=
  if negb (Z.land addr (pp_extraPokeyMask pp) =? 0) then
    '(t, p) <- pokey_poke pp addr data cycle (pp_extraPokey pp) ;; Ok (t, set_pp_extraPokey p pp)
  else
    '(t, p) <- pokey_poke pp addr data cycle (pp_basePokey pp) ;; Ok (t, set_pp_basePokey p pp).

(* asap.c:7496-7515 PokeyPair_Peek *)
Definition pair_peek (addr cycle : Z) (pp : pokeyPair) : outcome Z :=
  let pokey := if negb (Z.land addr (pp_extraPokeyMask pp) =? 0) then pp_extraPokey pp else pp_basePokey pp in
  match Z.land addr 15 with
  | 10 =>
    if pk_init pokey then Ok 255
    else
      let i := cycle + pk_polyIndex pokey in
      if negb (Z.land (pk_audctl pokey) 128 =? 0) then get poly9Lookup (Z.rem i 511)
      else
        let i := Z.rem i 131071 in
        let j := Z.shiftr i 3 in
        let i := Z.land i 7 in
        a <- get poly17Lookup j ;;
        b <- get poly17Lookup (j + 1) ;;
        Ok (Z.land (Z.shiftr a i + Z.shiftl b (8 - i)) 255)
  | 14 => Ok (pk_irqst pokey)
  | _ => Ok 255
  end.

(* asap.c:7517-7522 PokeyPair_StartFrame *)
Definition pair_start_frame (pp : pokeyPair) : outcome pokeyPair :=
  base <- start_frame (pp_basePokey pp) ;;
  let pp := set_pp_basePokey base pp in
  if pp_extraPokeyMask pp =? 0 then Ok pp
  else extra <- start_frame (pp_extraPokey pp) ;; Ok (set_pp_extraPokey extra pp).

(* asap.c:7524-7534 PokeyPair_EndFrame *)
Definition pair_end_frame (cycle : Z) (pp : pokeyPair) : outcome pokeyPair :=
  base <- pokey_end_frame pp cycle (pp_basePokey pp) ;;
  let pp := set_pp_basePokey base pp in
  pp <- (if pp_extraPokeyMask pp =? 0 then Ok pp
         else extra <- pokey_end_frame pp cycle (pp_extraPokey pp) ;; Ok (set_pp_extraPokey extra pp)) ;;
  step <- chk (cycle * pp_sampleFactor pp) ;;
  offset <- chk (pp_sampleOffset pp + step) ;;
  Ok (set_pp_sampleOffset (Z.land offset 262143)
        (set_pp_readySamplesEnd (Z.shiftr offset 18) (set_pp_readySamplesStart 0 pp))).

(* asap.c:7536-7557 PokeyPair_Generate: one iteration of the for loop, then the function.
   The loop variable runs from readySamplesStart to samplesEnd. *)
Definition generate_block (format : sample_format) (i : Z) (st : list Z * Z * pokeyPair)
  : outcome (list Z * Z * pokeyPair) :=
  let '(buffer, off, pp) := st in
  '(buffer, off, base) <- store_sample buffer off i format (pp_basePokey pp) ;;
  let pp := set_pp_basePokey base pp in
  if pp_extraPokeyMask pp =? 0 then Ok (buffer, off, pp)
  else
    '(buffer, off, extra) <- store_sample buffer off i format (pp_extraPokey pp) ;;
    Ok (buffer, off, set_pp_extraPokey extra pp).
Fixpoint generate_blocks (n : nat) (format : sample_format) (i : Z) (st : list Z * Z * pokeyPair)
  : outcome (list Z * Z * pokeyPair) :=
  match n with
  | O => Ok st
  | S k => st <- generate_block format i st ;; generate_blocks k format (i + 1) st
  end.
Definition pair_generate (buffer : list Z) (bufferOffset blocks : Z) (format : sample_format) (pp : pokeyPair)
  : outcome (Z * list Z * pokeyPair) :=
  let i := pp_readySamplesStart pp in
  let ready := pp_readySamplesEnd pp - i in
  let blocks := if blocks <? ready then blocks else ready in
  let samplesEnd := i + blocks in
  if 0 <? blocks then
    '(buffer, _, pp) <- generate_blocks (Z.to_nat blocks) format i (buffer, bufferOffset, pp) ;;
    let pp := if samplesEnd =? pp_readySamplesEnd pp
              then set_pp_extraPokey (set_pk_trailing samplesEnd (pp_extraPokey pp))
                     (set_pp_basePokey (set_pk_trailing samplesEnd (pp_basePokey pp)) pp)
              else pp in
    Ok (blocks, buffer, set_pp_readySamplesStart samplesEnd pp)
  else Ok (blocks, buffer, pp).

(* asap.c:7559-7562 PokeyPair_IsSilent *)
Definition pair_is_silent (pp : pokeyPair) : bool :=
  pokey_is_silent (pp_basePokey pp) && pokey_is_silent (pp_extraPokey pp).
