(* What it means that the program in a SAP file, made from a native module, uses the player routine as the native module does *)
From Verif Require Import Base MemModel InfoModel NativeModel WriterModel WriteModel WindowSpec SapSpec NativeSpec LoadSpec PokeyModel MachineModel PlayModel CpuSpec CpuProofs CpuFacts CallSpec.

(* a routine and the registers it is entered with; None: any value *)
Record entry := Entry { e_pc : Z; e_a : option Z; e_x : option Z; e_y : option Z }.

Definition given (o : option Z) (v : Z) : Prop := match o with Some w => v = w | None => True end.
Definition entered (e : entry) (s : asap) : Prop := m_pc s = e_pc e /\ given (e_a e) (m_a s) /\ given (e_x e) (m_x s) /\ given (e_y e) (m_y s).

(* from s the processor enters these routines one after another.  [sp]: the stack pointer of the caller; [touch]: the
   addresses the program writes itself, apart from the stack.  The last routine is jumped to, so that it returns to the
   caller; the earlier ones are called: whatever they do, as long as they leave the stack and [keeps] alone, the program
   goes on when they return. *)
Fixpoint calls (keeps final : asap -> Prop) (touch : list Z) (sp : Z) (l : list entry) (s : asap) : Prop :=
  match l with
  | [] => False
  | e :: l' => exists n s1, executes n s = Ok s1 /\ cpu_ok s1 /\ entered e s1 /\ rest s1 = rest s /\
      (forall a, 0 <= a -> ~ In a touch -> ~ 256 <= a <= 256 + sp -> ld (m_memory s1) a = ld (m_memory s) a) /\
      match l' with
      | [] => m_s s1 = sp /\ final s1
      | _ => forall t, cpu_ok t -> at_opcode 96 t -> same_stack (sp - m_s s1) (view s1) (view t) -> keeps t -> calls keeps final touch sp l' t
      end
  end.

(* the memory from lo to hi - 1 is as in s *)
Definition intact (lo hi : Z) (s t : asap) : Prop := forall a, lo <= a < hi -> ld (m_memory t) a = ld (m_memory s) a.

Definition low8 (v : Z) : Z := v mod 256.
Definition high8 (v : Z) : Z := v / 256.

(* how the players are initialised, for a module at [music], by their documentation: the position of a song is its first
   line in the song data *)
Definition player_inits (t : module_type) (player music song pos : Z) : list entry :=
  match t with
  | SAP_C | CMC | CM3 | CMR | CMS => [Entry (player + 3) (Some 112) (Some (low8 music)) (Some (high8 music)); Entry (player + 3) (Some 0) (Some song) (Some 0)]
  | DLT => [Entry (player + 256) (Some 0) (Some 0) (Some pos)]
  | MPT => [Entry player (Some 0) (Some (high8 music)) (Some (low8 music)); Entry player (Some 2) (Some pos) (Some 0)]
  | RMT => [Entry player (Some pos) (Some (low8 music)) (Some (high8 music))]
  | TMC | TM2 => [Entry player (Some 112) (Some (high8 music)) (Some (low8 music)); Entry player (Some 0) (Some song) (Some 0)]
  | FC => [Entry player (Some song) (Some 0) (Some 0)]
  | SAP_B | SAP_D | SAP_S => []
  end.

(* the same calls as far as the exported program makes them: registers without a meaning for the player are not set.
   With one song TMC gets the command 96, "play from the beginning", instead of 0, "play song X". *)
Definition exported_inits (t : module_type) (player music songs song pos : Z) : list entry :=
  match t with
  | DLT => [Entry (player + 256) None None (Some pos)]
  | MPT => [Entry player (Some 0) (Some (high8 music)) (Some (low8 music)); Entry player (Some 2) (Some pos) None]
  | TMC => [Entry player (Some 112) (Some (high8 music)) (Some (low8 music));
            if songs =? 1 then Entry player (Some 96) None None else Entry player (Some 0) (Some song) None]
  | TM2 => [Entry player (Some 112) (Some (high8 music)) (Some (low8 music)); Entry player (Some 0) (Some song) None]
  | FC => [Entry player (Some song) None None]
  | _ => player_inits t player music song pos
  end.

(* the position the program uses: with one song it is always 0 *)
Definition exported_pos (songs : Z) (songPos : list Z) (song : Z) : Z := if songs =? 1 then 0 else at_ songPos song.

(* the addresses of the added program: [lo, hi) *)
Definition stub_lo (t : module_type) : Z := match t with DLT => 985 | MPT => 1231 | RMT => 3200 | TMC => 1250 | TM2 => 4992 | _ => 0 end.
Definition stub_hi (t : module_type) (songs : Z) : Z :=
  match t with
  | DLT => 1024 | MPT | TMC => 1280
  | RMT => if songs =? 1 then 3209 else 3211 + songs
  | TM2 => if songs =? 1 then 5007 else 5009
  | _ => 0
  end.

(* TMC modules played two to four times per frame: the counter of the emulator and that of the exported program, a byte at
   address 0, are in step *)
Definition in_step (perFrame counter byte0 : Z) : Prop :=
  if perFrame =? 1 then counter = 1
  else if perFrame =? 2 then counter = 1 + byte0 mod 2
  else counter = byte0 /\ 1 <= counter.

(* the file [g] is the module [f], loaded as [inf] and edited to [inf2], saved as SAP *)
Record exported (fuel : nat) (self : info) (name ext f : list Z) (inf inf2 : info) (g : list Z) : Prop := {
  ex_ext : In ext native_exts;
  ex_name : named name ext;
  ex_bytes : bytes f;
  ex_self : len (i_songPos self) = 32;
  ex_load : api_load fuel self (Some name) f = Ok inf;
  ex_edited : edited inf inf2;
  ex_save : exists out tag w w', named out sap_ext /\ wf w /\ api_write out inf2 f tag w = Ok (true, w') /\ g = written w w'
}.

(* what a saved file needs to be a SAP file with the same contents *)
Record faithful (ext f : list Z) (inf inf2 : info) : Prop := {
  fa_author : i_author inf2 <> unknown_text;
  fa_title : i_title inf2 <> unknown_text;
  fa_date : i_date inf2 <> unknown_text;
  fa_durations : Forall (fun d => d < 6000000) (firstn (known_songs inf2) (i_durations inf2));
  fa_music : i_music inf2 = i_music inf; (* not moved *)
  fa_positions : bytes (i_songPos inf); (* an array of uint8_t *)
  fa_songs : 1 <= i_songs inf;
  fa_mark : i_type inf = DLT \/ i_type inf = MPT \/ i_type inf = RMT \/ i_type inf = TMC \/ i_type inf = TM2 -> at_ f 0 = 255 /\ at_ f 1 = 255;
  fa_rmt : i_type inf = RMT -> file_word f 2 <= file_word f 4;
  fa_fc : i_type inf = FC -> 0 < len f /\ 2560 + len f <= 65536
}.

(* the type of the SAP file *)
Definition sap_type_of (t : module_type) : module_type := match t with CMC | CM3 | CMR | CMS => SAP_C | _ => SAP_B end.

(* the metadata are the same *)
Record same_tune (inf inf' : info) : Prop := {
  st_author : i_author inf' = i_author inf;
  st_title : i_title inf' = i_title inf;
  st_date : i_date inf' = i_date inf;
  st_songs : i_songs inf' = i_songs inf;
  st_defsong : i_defsong inf' = i_defsong inf;
  st_channels : i_channels inf' = i_channels inf;
  st_ntsc : i_ntsc inf' = i_ntsc inf;
  st_fastplay : i_fastplay inf' = i_fastplay inf;
  st_durations : i_durations inf' = first_of_32 (known_songs inf) (-1) (i_durations inf);
  st_loops : i_loops inf' = first_of_32 (known_songs inf) false (i_loops inf)
}.

(* the calls of do_6502_init made to start a song, the next one only if the one before ended in time *)
Fixpoint started (l : list entry) (s : asap) (b : bool) (s' : asap) : Prop :=
  match l with
  | [] => b = true /\ s' = s
  | e :: l => exists s1 b1 s2, entered e s1 /\ m_s s1 = 253 /\ rest s1 = rest s /\ (forall a, 0 <= a -> a <> 510 -> a <> 511 -> a <> 53760 -> ld (m_memory s1) a = ld (m_memory s) a) /\
      code_at 510 [255; 209] s1 /\ ld (m_memory s1) 53760 = 210 /\ init_frames 50 s1 = Ok (b1, s2) /\ (if b1 then started l s2 b s' else b = false /\ s' = s2)
  end.

(* the calls of the saved program are those of the native module, with the registers that do not matter left as they are *)
Definition agrees (o : option Z) (o' : option Z) : Prop := o = None \/ o = o'.
Definition refines (e e' : entry) : Prop := e_pc e = e_pc e' /\ agrees (e_a e) (e_a e') /\ agrees (e_x e) (e_x e') /\ agrees (e_y e) (e_y e').
