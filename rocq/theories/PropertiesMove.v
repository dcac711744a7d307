(* Properties of saving native modules: unchanged (C16) and at another address (C17).
   Statements only; the proofs are in MoveSave.v, MoveBack.v and MoveWitness.v. *)
From Coq Require Import String.
From Verif Require Import Base InfoModel NativeModel NativeSpec WriterModel FlashPackModel WriteModel SapSpec SapWitness NativeWitness SaveWitness WindowSpec MoveSpec MoveSave MoveWitness.

(* ---- C16 ---- *)
(* a loaded module saved under a name with the same extension is the same file; of an RMT module the header must
   be consistent, the other formats need nothing more than being accepted *)
Theorem C16_loaded :
  forall fuel self name ext f inf target tag w, In ext native_exts -> named name ext -> named target ext -> bytes f -> len (i_songPos self) = 32 ->
  api_load fuel self (Some name) f = Ok inf -> (i_type inf = RMT -> complete RMT f) -> wf w -> w_off w = 0 -> len f <= w_end w ->
  exists w', api_write target inf f tag w = Ok (true, w') /\ w_end w' = w_end w /\ written w w' = f.
Proof. exact loaded_same. Qed.
Print Assumptions C16_loaded.

(* the same for any info whose music address is not set or is the address of the module *)
Theorem C16_same :
  forall inf f target tag w e, native (i_type inf) -> complete (i_type inf) f -> bytes f -> In e (own_exts inf) -> named target e ->
  wf w -> w_off w = 0 -> len f <= w_end w -> i_music inf < 0 \/ i_music inf = file_word f 2 ->
  exists w', api_write target inf f tag w = Ok (true, w') /\ w_end w' = w_end w /\ written w w' = f.
Proof. exact own_same. Qed.
Print Assumptions C16_same.

Example C16_example_complete : bytes rmt_tune /\ complete RMT rmt_tune /\ len rmt_tune = 48.
Proof. exact rmt_tune_complete. Qed.
Example C16_example : exists inf w', loaded_as "x.rmt" rmt_tune = Ok inf
  /\ api_write (str "y.rmt") inf rmt_tune false room = Ok (true, w') /\ written room w' = rmt_tune.
Proof. exact rmt_tune_same. Qed.

(* an accepted RMT module that begins with two zeros is saved with two 255s *)
Theorem C16_zeros_refuted : exists inf w', loaded_as "x.rmt" rmt_zeros = Ok inf
  /\ api_write (str "y.rmt") inf rmt_zeros false room = Ok (true, w') /\ written room w' = rmt_tune /\ rmt_tune <> rmt_zeros.
Proof. exact rmt_zeros_differ. Qed.
Print Assumptions C16_zeros_refuted.

(* the position in the output is used as the position in the module: with another start index a different file is reported as saved *)
Theorem C16_start_refuted : exists inf w', loaded_as "x.cmc" cmc_file = Ok inf
  /\ api_write (str "y.cmc") inf cmc_file false room_at_10 = Ok (true, w') /\ written room_at_10 w' <> cmc_file.
Proof. exact start_differs. Qed.
Print Assumptions C16_start_refuted.

(* ---- C17 ---- *)
(* after SetMusicAddress the saved file has all its addresses changed by the difference and is otherwise the same;
   it is refused exactly when the module would end above 65535 *)
Theorem C17_moved :
  forall inf f target tag w e a inf', native (i_type inf) -> complete (i_type inf) f -> bytes f -> In e (own_exts inf) -> named target e ->
  wf w -> w_off w = 0 -> len f <= w_end w -> api_set_music_address inf a = (true, inf') ->
  if file_word f 4 + (a - file_word f 2) <=? 65535
  then exists w', api_write target inf' f tag w = Ok (true, w') /\ w_end w' = w_end w /\ is_moved (i_type inf) (a - file_word f 2) f (written w w')
  else api_write target inf' f tag w = Ok (false, w).
Proof. exact own_at. Qed.
Print Assumptions C17_moved.

(* the moved file has the same structure, and its addresses differ by the distance unless they are 0 or 65535 *)
Theorem C17_pointers :
  forall t d f g, native t -> complete t f -> bytes f -> movable t d f -> is_moved t d f g ->
  complete t g /\ file_word g 2 = file_word f 2 + d /\ forall i, 0 <= i < len f -> cell_of t g i = cell_of t f i /\
  match cell_of t f i with
  | Some c => address g c = if (address f c =? 0) || (address f c =? 65535) then address f c else address f c + d
  | None => at_ g i = at_ f i
  end.
Proof. exact moved_pointers. Qed.
Print Assumptions C17_pointers.

(* and saving it at the original address gives the original file *)
Theorem C17_back :
  forall inf f g target tag w e d, native (i_type inf) -> complete (i_type inf) f -> bytes f -> In e (own_exts inf) -> named target e ->
  wf w -> w_off w = 0 -> len f <= w_end w -> movable (i_type inf) d f -> is_moved (i_type inf) d f g -> i_music inf = file_word f 2 ->
  exists w', api_write target inf g tag w = Ok (true, w') /\ w_end w' = w_end w /\ written w w' = f.
Proof. exact own_back. Qed.
Print Assumptions C17_back.

Example C17_example : exists inf inf' w', loaded_as "x.rmt" rmt_tune = Ok inf /\ api_set_music_address inf 20480 = (true, inf')
  /\ api_write (str "y.rmt") inf' rmt_tune false room = Ok (true, w') /\ written room w' = rmt_tune_20480.
Proof. exact rmt_tune_moved. Qed.
Example C17_example_movable : movable RMT 4096 rmt_tune.
Proof. exact rmt_tune_movable. Qed.

(* a module at address 0: its start address is taken for no address, so the saved file does not load *)
Theorem C17_zero_refuted : exists inf inf' w', loaded_as "x.cmc" cmc_zero = Ok inf /\ api_set_music_address inf 8192 = (true, inf')
  /\ api_write (str "y.cmc") inf' cmc_zero false room = Ok (true, w')
  /\ file_word (written room w') 2 = 0 /\ file_word (written room w') 4 = file_word cmc_zero 4 + 8192 /\ address (written room w') (26, 90) = address cmc_zero (26, 90) + 8192
  /\ loaded_as "y.cmc" (written room w') = Fail.
Proof. exact zero_not_moved. Qed.
Print Assumptions C17_zero_refuted.
