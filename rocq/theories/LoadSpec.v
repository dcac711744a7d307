(* What is in the emulated memory after loading a file, and which files the native formats accept by their addresses.
   Blocks and executables are those of FlashSpec.  Nothing here refers to the loader. *)
From Verif Require Import Base InfoModel WindowSpec NativeSpec Resources FlashSpec.

(* a block with data, inside the memory *)
Definition placed_block (b : block) : Prop :=
  let '(_, start, data) := b in 0 <= start /\ 0 < len data /\ start + len data <= 65536 /\ bytes data.
(* FF FF may stand before a block; it must if the block's address is FFFF.  The file's own FF FF is before the first block. *)
Definition sap_blocks (bs : list block) : Prop :=
  match bs with
  | (mark, start, data) :: rest => mark = false /\ placed_block (mark, start, data) /\ Forall proper_block rest
  | [] => False
  end.
(* an Atari executable after a text *)
Definition sap_file (head : list Z) (bs : list block) : list Z := head ++ [255; 255] ++ executable bs.

(* the 6502 routine for a module type as a block *)
Definition routine (t : module_type) (channels : Z) : list Z :=
  match t with
  | CMC => res_cmc_obx | CM3 => res_cm3_obx | CMR => res_cmr_obx | CMS => res_cms_obx | DLT => res_dlt_obx | MPT => res_mpt_obx
  | RMT => if channels =? 1 then res_rmt4_obx else res_rmt8_obx
  | TMC => res_tmc_obx | TM2 => res_tm2_obx | FC => res_fc_obx
  | _ => []
  end.
Definition routine_start (t : module_type) (channels : Z) : Z := file_word (routine t channels) 2.
Definition routine_code (t : module_type) (channels : Z) : list Z := skipn 6 (routine t channels).

(* where the data of a module go, and the data *)
Definition music_start (ext f : list Z) : Z := if eqb_list ext fc_ext then 2560 else file_word f 2.
Definition music_data (ext f : list Z) : list Z := if eqb_list ext fc_ext then f else skipn 6 f.

(* a module is one block, FF FF or 0 0 before it, that does not reach the hardware from below;
   in RMT files a second block with names may follow immediately *)
Definition enveloped (ext f : list Z) : Prop :=
  ((at_ f 0 = 255 /\ at_ f 1 = 255) \/ (at_ f 0 = 0 /\ at_ f 1 = 0)) /\
  (file_word f 2 < 55296 -> file_word f 4 < 53248) /\
  let after := 7 + file_word f 4 - file_word f 2 in
  (len f = after \/
   (ext = rmt_ext /\ after + 5 <= len f /\ file_word f after = file_word f 4 + 1 /\
    file_word f (after + 2) + 1 - file_word f after = len f - after - 4)).
