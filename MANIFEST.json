{
 "claims": [
  {
   "property": "C01",
   "status": "proved",
   "theorems": [
    "C01_duration_round_trip",
    "C01_duration_no_text"
   ],
   "note": "Round trip for all 0..5999999 ms; no text otherwise."
  },
  {
   "property": "C02",
   "status": "proved",
   "theorems": [
    "C02_parse_duration_exact",
    "C02_parse_duration_safe",
    "C02_no_trailing_text_refuted"
   ],
   "note": "Exact characterisation of the accepted strings; the stricter reading without trailing text is refuted."
  },
  {
   "property": "C03",
   "status": "proved",
   "theorems": [
    "C03_decimal_exact",
    "C03_hexadecimal_exact",
    "C03_no_argument",
    "C03_decimal_written",
    "C03_hexadecimal_written"
   ],
   "note": "Exact characterisation of both number readers and of what the writer stores."
  },
  {
   "property": "C04",
   "status": "proved",
   "theorems": [
    "C04_set_author",
    "C04_set_title",
    "C04_set_date"
   ],
   "note": ""
  },
  {
   "property": "C05",
   "status": "proved",
   "theorems": [
    "C05_date_queries",
    "C05_date_queries_invalid"
   ],
   "note": ""
  },
  {
   "property": "C06",
   "status": "proved",
   "theorems": [
    "C06_set_default_song",
    "C06_set_duration",
    "C06_set_loop",
    "C06_set_music_address"
   ],
   "note": "SetDuration/SetLoop assume the number of songs does not exceed the arrays (32), which Load guarantees."
  },
  {
   "property": "C07",
   "status": "proved",
   "theorems": [
    "C07_set_ntsc",
    "C07_there_and_back",
    "C07_long_durations_refuted"
   ],
   "note": "Conversion to PAL of 1786886411 ms or more wraps int: refuted for those."
  },
  {
   "property": "C08",
   "status": "proved",
   "theorems": [
    "C08_is_our_file",
    "C08_is_our_ext_refuted",
    "C08_is_our_ext"
   ],
   "note": "IsOurFile exact for every name (int shift taken modulo 2^32). IsOurExt exact for printable characters, refuted for control characters."
  },
  {
   "property": "C09",
   "status": "proved",
   "theorems": [
    "C09_sap_load_defined"
   ],
   "note": "For every .sap name and every byte string; the step bound is that fuel equal to the file length suffices in every loop of the parser."
  },
  {
   "property": "C10",
   "status": "proved",
   "theorems": [
    "C10_sap_load_guarantees"
   ],
   "note": ""
  },
  {
   "property": "C11",
   "status": "proved",
   "theorems": [
    "C11_sap_save_load",
    "C11_long_duration_refuted",
    "C11_unknown_text_refuted",
    "C11_music_refuted"
   ],
   "note": "For texts other than <?> and durations below 100 minutes. A duration of 100 minutes or more makes the file unloadable, the text <?> and the MUSIC address of types B, D and S are lost: three refutations."
  },
  {
   "property": "C12",
   "status": "proved",
   "theorems": [
    "C12_sap_payload_kept"
   ],
   "note": "Also says exactly when the window is too small."
  },
  {
   "property": "C13",
   "status": "proved",
   "theorems": [
    "C13_cmc_reads_inside",
    "C13_cms_reads_inside",
    "C13_dlt_reads_inside",
    "C13_fc_reads_inside",
    "C13_no_bad_write",
    "C13_cms_refuted",
    "C13_mpt_refuted",
    "C13_tmc_refuted",
    "C13_tm2_refuted",
    "C13_rmt_refuted"
   ],
   "note": "True and proved for .cmc/.cm3/.cmr/.dmc, .dlt, .fc, and for .cms of at least 1028 bytes, for every content; stores stay inside the arrays for every format. The statement as written is false of the code for .cms below 1028 bytes, .mpt, .tmc, .tm2 and .rmt: refuted with concrete files."
  },
  {
   "property": "C14",
   "status": "proved",
   "theorems": [
    "C14_load_ends",
    "C14_result_independent_of_fuel",
    "C14_cmc_refuted",
    "C14_rmt_refuted"
   ],
   "note": "Loading ends for every file of every supported extension that contains no RMT jump byte / CMC repeat line, with an explicit step bound, and the result does not depend on the fuel. False in general: two files on which loading never ends (CMC repeat + jump, RMT pattern jump to itself)."
  },
  {
   "property": "C15",
   "status": "proved",
   "theorems": [
    "C15_window",
    "C15_window_xex",
    "C15_start_refuted",
    "C15_negative_copy_refuted"
   ],
   "note": "For every target except an executable: only the window changes, on success and on failure, and the position stays in it (C15_window); the only undefined behaviours are reads outside the module and negative copy lengths. Executables are packed from index 0 of the array, so below the start of the window bytes are stored (C15_start_refuted); they stay below the end (C15_window_xex). A file that loads can cause a memcpy with a negative size (C15_negative_copy_refuted). The fixed size of FlashPack's own compressed array is modelled, an overrun of it is UB in the model. For executables C15_window_xex is about calls that return; the title screen of C18 is one place where they may not."
  },
  {
   "property": "C16",
   "status": "proved",
   "theorems": [
    "C16_loaded",
    "C16_same",
    "C16_zeros_refuted",
    "C16_start_refuted"
   ],
   "note": "C16_loaded: every native file that loads is saved byte for byte under its own extension into a large enough window starting at index 0; for RMT the header must be consistent (complete, stated in MoveSpec.v). C16_same is the same for any info without or with the original address. Not true for an RMT module beginning with two zeros (C16_zeros_refuted) and for a window with another start index (C16_start_refuted), both accepted by the API."
  },
  {
   "property": "C17",
   "status": "proved",
   "theorems": [
    "C17_moved",
    "C17_pointers",
    "C17_back",
    "C17_zero_refuted"
   ],
   "note": "C17_moved: what is saved after SetMusicAddress is the file with all address cells changed (MoveSpec.v gives the cells of each format), refused exactly when the end would exceed 65535. C17_pointers: same structure, every address differs by the distance unless 0 or 65535. C17_back: saving that at the original address restores the file. Needs a module that is not at address 0 and does not end at 65535: C17_zero_refuted shows a module at 0 whose start address is not moved."
  },
  {
   "property": "C18",
   "status": "proved",
   "theorems": [
    "C18_title",
    "C18_author",
    "C18_other",
    "C18_author_refuted",
    "C18_duration_refuted",
    "C18_other_bound"
   ],
   "note": "False for some authors: a valid text of 105 characters naming several authors overruns the author buffer (C18_author_refuted), and so does no shorter one: every valid author of at most 104 characters, or of any accepted length without ' &', fits (C18_author). Titles always fit, with the exact layout (C18_title). The third buffer fits for every date and every duration up to INT_MAX-999 (C18_other), above that the rounding overflows (C18_duration_refuted, C18_other_bound)."
  },
  {
   "property": "C19",
   "status": "proved",
   "theorems": [
    "C19_stream",
    "C19_packed",
    "C19_fits"
   ],
   "note": "C19_stream: for every memory image and hole the emitted stream, decoded by the rules of 6502/fp3depk.asx (stated in FlashSpec.v without the compressor), writes exactly the loaded bytes and the five pokes. C19_packed: for every executable given as blocks (later block wins) the packed file is exactly the three blocks of the packed layout with the depacker assembled for its address, the program's run address and such a stream; otherwise the save fails, or compressed[] overflows, which needs more than the stated size. C19_fits: never for up to 57000 bytes in 100 blocks. The decoder reads the stream from its own storage: that the depacker does not overwrite the unread stream in place, and that its 6502 code implements the rules, are not part of the statement."
  },
  {
   "property": "C20",
   "status": "proved",
   "theorems": [
    "C20_listed",
    "C20_dispatch",
    "C20_alias",
    "C20_unlisted",
    "C20_defined",
    "C20_out_of_bounds_refuted"
   ],
   "note": "List contents, dispatch of every listed name and of the alias tm8, refusal of everything else. GetSaveExts itself can read outside the module for a file that loads (C20_out_of_bounds_refuted); C20_defined gives the condition under which it does not."
  },
  {
   "property": "C21",
   "status": "proved",
   "theorems": [
    "C21_header",
    "C21_size_delivered",
    "C21_size_of_sequence",
    "C21_metadata_even",
    "C21_metadata_fits",
    "C21_odd_data_refuted",
    "C21_endless_refuted",
    "C21_overflow_refuted",
    "C21_long_title_refuted"
   ],
   "note": "ASAP_GetWavHeader stores exactly a RIFF/WAVE header (WavSpec.v) of the remaining samples, and that size is what ASAP_Generate delivers, in one call or any sequence. False parts are refuted: an odd number of 8-bit mono samples gives an odd data chunk without padding, a song without duration gets a negative size, sizes overflow int for very long songs, and a title longer than the setters accept (from a file) needs a longer buffer than 342 bytes."
  },
  {
   "property": "C22",
   "status": "proved",
   "theorems": [
    "C22_generate_counts",
    "C22_total_delivered",
    "C22_generate_ends",
    "C22_play_song_ends",
    "C22_seek_ends",
    "C22_seek_past_end_refuted",
    "C22_long_duration_refuted"
   ],
   "note": "For every state reachable by loading any module and any sequence of PlaySong, Generate, Mute, DetectSilence and Seek within the duration, at 59..262143 Hz. A Seek past the end and a duration of 2^31 blocks or more make Generate return a negative count: two refutations."
  },
  {
   "property": "C23",
   "status": "proved",
   "theorems": [
    "C23_buffer_sizes"
   ],
   "note": "Both directions: the split calls succeed exactly when the single call does, with the same bytes and the same final state."
  },
  {
   "property": "C24",
   "status": "proved",
   "theorems": [
    "C24_sample_formats"
   ],
   "note": "Every stored sample is the saturated accumulator read back through the format; the buffer elsewhere is unchanged."
  },
  {
   "property": "C25",
   "status": "proved",
   "theorems": [
    "C25_maximal_length",
    "C25_random_register",
    "C25_eight_consecutive_bits",
    "C25_channel_output",
    "C25_noise_across_frames"
   ],
   "note": "All four registers (4, 5, 9, 17 bits), the RANDOM byte, the channel output that samples them and the phase across frames."
  },
  {
   "property": "C26",
   "status": "proved",
   "theorems": [
    "C26_mixing",
    "C26_after_play_song_refuted"
   ],
   "note": "True for every chip history between initialisation and muting (C26_mixing). False of playback through the API: PlaySong mutes the chips while the init routine runs, so a volume set there is subtracted later without having been added and the table is read out of bounds (C26_after_play_song_refuted)."
  },
  {
   "property": "C27",
   "status": "proved",
   "theorems": [
    "C27_generation_ends",
    "C27_nothing_pending",
    "C27_register_writes_end"
   ],
   "note": "For any register contents in the ranges C29 keeps."
  },
  {
   "property": "C28",
   "status": "proved",
   "theorems": [
    "C28_documented_instructions",
    "C28_adc_binary",
    "C28_sbc_binary",
    "C28_adc_decimal",
    "C28_sbc_decimal"
   ],
   "note": "All 151 documented opcodes are compared with an independent specification (CpuSpec.v), including N, V, Z, C and cycle counts; ADC and SBC additionally as plain arithmetic equations, binary and packed decimal."
  },
  {
   "property": "C29",
   "status": "proved",
   "theorems": [
    "C29_ranges_kept"
   ],
   "note": "For all 256 opcodes, from any state with register ranges, and also for the POKEY registers."
  },
  {
   "property": "C30",
   "status": "proved",
   "theorems": [
    "C30_pha_pla",
    "C30_php_plp",
    "C30_jsr_rts",
    "C30_brk_rti",
    "C30_irq_rti"
   ],
   "note": "Any code may run between push and pull as long as the pushed bytes are still on the stack; restoring I while an interrupt is pending is excluded, since the interrupt is then taken at once."
  },
  {
   "property": "C31",
   "status": "proved",
   "theorems": [
    "C31_no_write_outside",
    "C31_no_read_outside_below_top",
    "C31_frame_no_write_outside",
    "C31_frame_inside",
    "C31_read_outside_refuted"
   ],
   "note": "False: executing at FFFE or FFFF reads memory[65536], shown by a SAP file. Proved: no write outside memory or the delta buffers for any program; no read outside as long as the program counter stays at or below FFFD and no channel is muted."
  },
  {
   "property": "C32",
   "status": "proved",
   "theorems": [
    "C32_load_address",
    "C32_store_address",
    "C32_jump_indirect",
    "C32_jump_page_wrap_refuted"
   ],
   "note": "Every documented addressing mode agrees with the specification (C28 covers the other instructions). The page wrap of JMP (xxFF) is false: the high byte is taken from xx01 instead of xx00 (witness)."
  },
  {
   "property": "C33",
   "status": "proved",
   "theorems": [
    "C33_replay_refuted"
   ],
   "note": "False of the code: the DAC level of the previous play (sumDACOutputs) is not reset, so a replayed song starts with different samples. Refuted by a concrete file."
  },
  {
   "property": "C34",
   "status": "proved",
   "theorems": [
    "C34_seek_position",
    "C34_reported_position",
    "C34_seek_then_position",
    "C34_seek_samples_refuted",
    "C34_seek_inside_frame_refuted",
    "C34_position_drift_refuted"
   ],
   "note": "The block position after a seek is exact and the reported time is exact to 1 ms at rates that are multiples of 100 Hz. The claim about the samples is false (the filter state and skipped samples are not reproduced; inside a frame the seek lands early; the reported time drifts at 11025 Hz): three refutations."
  },
  {
   "property": "C35",
   "status": "proved",
   "theorems": [
    "C35_file_contents",
    "C35_listed_contents",
    "C35_file_size",
    "C35_corrupt_file",
    "C35_used_stream_refuted",
    "C35_always_returns_refuted"
   ],
   "note": "For every file whose sectors form a finite chain, every sequence of Read, SetPosition, GetPosition and GetLength calls answers as for the concatenated data, from the path to the bytes. Needs a stream buffer whose byte 127 is at most 128 on 128-byte sectors (any contents otherwise): a stream that has read a corrupt file fails on a healthy one (refuted with a witness), and Read of an empty sector linking to itself never returns (refuted)."
  },
  {
   "property": "C36",
   "status": "proved",
   "theorems": [
    "C36_open",
    "C36_sector",
    "C36_apart",
    "C36_missing",
    "C36_boot_sectors"
   ],
   "note": "The position of every sector of any image that Open accepts, disjointness, and what is refused."
  },
  {
   "property": "C37",
   "status": "proved",
   "theorems": [
    "C37_listing_ends"
   ],
   "note": "Every listing ends, whatever the image, without leaving the 20 directory objects; paths have at most 259 characters."
  },
  {
   "property": "C38",
   "status": "proved",
   "theorems": [
    "C38_safe",
    "C38_safe_refuted"
   ],
   "note": "Every write stays in its array and the call returns, for every file; the only possible undefined behaviour is reading past the line array in a TITLE line of 99 or 100 characters that ends in a number after its last parenthesis, and that is refuted with a witness (C38_safe_refuted)."
  },
  {
   "property": "C39",
   "status": "proved",
   "theorems": [
    "C39_line",
    "C39_end"
   ],
   "note": "For every line and any previous contents of the array. A last line without a line feed is not seen (C39_end)."
  },
  {
   "property": "C40",
   "status": "proved",
   "theorems": [
    "C40_safe",
    "C40_reserved",
    "C40_directory"
   ],
   "note": "asapconv.c:200-325 and the loop calling it. C40_safe: no access outside the buffer or the pattern for any pattern, tags and buffer size, the input being a file with a supported extension (it has been loaded by then). C40_reserved: the reserved characters < > : / \\ | ? * of a name are those of the pattern and of the input path. C40_directory: the separators are those of the pattern. Quotation marks are not replaced by the code and not counted as reserved."
  },
  {
   "property": "C41",
   "status": "proved",
   "theorems": [
    "C41_placed",
    "C41_native_load_guarantees",
    "C41_fc_no_songs_refuted"
   ],
   "note": "Holds for every native extension; the only exception is that an FC file can load with 0 songs, shown by a witness. C41_placed: the file is a single block, or for RMT two adjoining blocks, whose length is the file's, and a module that starts below the hardware ends below it."
  },
  {
   "property": "C42",
   "status": "proved",
   "theorems": [
    "C42_durations_defined",
    "C42_cmc_repeats_refuted",
    "C42_mpt_refuted"
   ],
   "note": "Proved for the CMC family without repeat commands and for DLT. False in general: a CMC file with repeats and an MPT file overflow the product in AddSong (witnesses)."
  },
  {
   "property": "C43",
   "status": "proved",
   "theorems": [
    "C43_frame_ends"
   ],
   "note": "For any program and register contents; OutOfFuel in the model stands for a loop that exceeds a bound proved sufficient."
  },
  {
   "property": "C44",
   "status": "proved",
   "theorems": [
    "C44_play_song_stores",
    "C44_generate_stores",
    "C44_seek_stores"
   ],
   "note": "Signed overflow of the mixing arithmetic and reads outside the tables and memory are not excluded (see C24-C26 for those)."
  },
  {
   "property": "C45",
   "status": "proved",
   "theorems": [
    "C45_period"
   ],
   "note": "For every history (an inductive relation of power-on, register writes and all other operations on a POKEY) the periods equal the function channel_period of the registers as last written."
  },
  {
   "property": "C46",
   "status": "proved",
   "theorems": [
    "C46_ticks",
    "C46_stimer",
    "C46_interrupt_timer"
   ],
   "note": "Ticks of channels that cannot be restarted by another one (linked pairs, two-tone mode), STIMER, and the interrupt timers started by IRQEN."
  },
  {
   "property": "C47",
   "status": "proved",
   "theorems": [
    "C47_listing_exact"
   ],
   "note": "Exact, with an independent definition of directory records, names, kinds and nesting."
  },
  {
   "property": "C48",
   "status": "proved",
   "theorems": [
    "C48_find_path"
   ],
   "note": "Both directions, for every path."
  },
  {
   "property": "C49",
   "status": "proved",
   "theorems": [
    "C49_contents",
    "C49_exact",
    "C49_function_refuted",
    "C49_start",
    "C49_range"
   ],
   "note": "For every STIL.txt, up to one choice: whether a title whose times run past the end of the line is cut. Without such a line the result is exactly the specified function of the file (C49_exact); with one it depends on what the line array held before (C49_function_refuted). Song numbers from 0."
  },
  {
   "property": "C50",
   "status": "proved",
   "theorems": [
    "C50_found",
    "C50_candidates",
    "C50_order"
   ],
   "note": "For every path without NUL and every set of files."
  },
  {
   "property": "C51",
   "status": "proved",
   "theorems": [
    "C51_outputs",
    "C51_numerals",
    "C51_distinct"
   ],
   "note": "C51_outputs gives the complete result of the naming loop, C51_distinct that no output overwrites another, C51_numerals that the song numbers exist and are unique."
  },
  {
   "property": "C52",
   "status": "proved",
   "theorems": [
    "C52_sap_loads",
    "C52_sap_only",
    "C52_native_memory",
    "C52_native_loads",
    "C52_cut_refuted",
    "C52_fc_refuted",
    "C52_rmt_refuted"
   ],
   "note": "C52_sap_loads and C52_sap_only give the blocks in both directions; C52_native_memory the memory after a native load; C52_native_loads that all formats but RMT and FC load unless the module is over the player. The last sentence is false in three cases: C52_cut_refuted (a SAP file cut by up to four bytes is read past its end), C52_fc_refuted (an FC module longer than 62976 bytes) and C52_rmt_refuted (music and names ending with the memory) store past the 64K memory."
  },
  {
   "property": "C53",
   "status": "proved",
   "theorems": [
    "C53_play_rate",
    "C53_determined",
    "C53_generate",
    "C53_seek_forward",
    "C53_seek_back",
    "C53_requests",
    "C53_observed"
   ],
   "note": "C53_play_rate: PlaySong at two rates; C53_determined: frames decide; C53_generate, C53_seek_forward, C53_seek_back, C53_requests: what the calls do to the machine; C53_observed: what the same machine means. Where one of two runs ends in undefined behaviour or an error (possible only in the sound code, see C44) nothing is claimed. C53_example also shows that a seek back does not restore the memory of the song."
  },
  {
   "property": "C54",
   "status": "proved",
   "theorems": [
    "C54_mask",
    "C54_mask_only",
    "C54_silent",
    "C54_silent_writes",
    "C54_silent_frames",
    "C54_joined_refuted",
    "C54_timer_refuted",
    "C54_volume_refuted",
    "C54_program",
    "C54_program_writes",
    "C54_program_frames",
    "C54_program_interrupts",
    "C54_program_reads"
   ],
   "note": "C54_mask, C54_mask_only: exactly what the call changes. As stated the property is false: C54_joined_refuted (a muted channel joined with another still sounds), C54_timer_refuted (a muted channel never raises its timer interrupt, so the program runs differently), C54_volume_refuted (muting and unmuting around volume changes ends in an out-of-bounds read). True: a POKEY with all channels muted makes no sound (C54_silent*), and nothing but enabling a timer interrupt lets a program notice the muting (C54_program*)."
  },
  {
   "property": "C55",
   "status": "proved",
   "theorems": [
    "C55_event",
    "C55_entry",
    "C55_call",
    "C55_interrupts",
    "C55_no_player",
    "C55_softsynth",
    "C55_tmc",
    "C55_init"
   ],
   "note": "C55_event: exactly when the player is called. C55_entry, C55_call: the formats with a plain call, from the event to the return. C55_interrupts: type D, given that the player keeps the stack above it and the return stub, and that no interrupt is pending where the program allows interrupts. C55_softsynth, C55_tmc: the two others. C55_init: the end of an initialisation routine."
  },
  {
   "property": "C56",
   "status": "proved",
   "theorems": [
    "C56_scanlines",
    "C56_session",
    "C56_loaded",
    "C56_count",
    "C56_on_time",
    "C56_prepared",
    "C56_initialising"
   ],
   "note": "C56_scanlines with C56_session: every session of requests after PlaySong has the calls in exactly these scanlines. C56_loaded gives the condition on the interval after every load. C56_count: their number. C56_on_time: never late by a scanline. C56_prepared, C56_initialising: none during initialisation."
  },
  {
   "property": "C57",
   "status": "proved",
   "theorems": [
    "C57_saved",
    "C57_memory",
    "C57_started",
    "C57_init",
    "C57_same_calls",
    "C57_play",
    "C57_tmc",
    "C57_zeros_refuted",
    "C57_backwards_refuted",
    "C57_moved_refuted",
    "C57_position_refuted",
    "C57_overwritten_refuted"
   ],
   "note": "C57_saved, C57_memory: the saved file is loaded with the same metadata and the same memory. C57_started: what PlaySong does for a native module; C57_init with C57_same_calls: the INIT routine of the saved file does the same, executed instruction by instruction by the CPU model, for every behaviour of the player routine that returns. C57_play, C57_tmc: the periodic calls. False without the conditions in `faithful`: C57_zeros_refuted, C57_backwards_refuted, C57_moved_refuted, C57_position_refuted, C57_overwritten_refuted."
  },
  {
   "property": "C58",
   "status": "proved",
   "theorems": [
    "C58_request",
    "C58_counts",
    "C58_seconds",
    "C58_ended",
    "C58_portions",
    "C58_restart",
    "C58_seek",
    "C58_quiet",
    "C58_silent_refuted"
   ],
   "note": "C58_request: the limit, and overflow above 1210 seconds. C58_counts, C58_seconds: playback goes on exactly until enough quiet frames. C58_ended: then nothing changes. C58_portions: independent of the portions. C58_restart, C58_seek: starting again and seeking. C58_quiet: a quiet frame changes neither the COVOX nor the speaker. The last sentence is false: C58_silent_refuted gives a program that sounds in every frame and is counted as silent, because only the volumes at the end of a frame are looked at."
  },
  {
   "property": "C59",
   "status": "proved",
   "theorems": [
    "C59_depacker",
    "C59_packed"
   ],
   "note": "C59_depacker: the code does what the definition of the format says, for every stream that does not overwrite what is still needed. C59_packed: the streams of the compressor satisfy this for executables of at most 64 blocks, so such an executable, packed and loaded, reaches its run address with all its data in memory."
  },
  {
   "property": "C60",
   "status": "proved",
   "theorems": [
    "C60_read",
    "C60_write",
    "C60_wsync",
    "C60_vcount",
    "C60_nmist"
   ],
   "note": "C60_read and C60_write give every access at every address; C60_wsync, C60_vcount and C60_nmist say what the timing registers mean. Read-modify-write instructions outside page D2 read memory instead of the register (asap.c:5591), which is not part of these theorems. C60_nmist is about histories of writes to NMIRES and of frame starts; that nothing else changes NMIST is in C60_write for writes, and by inspection of the model for the rest."
  },
  {
   "property": "C61",
   "status": "proved",
   "theorems": [
    "C61_names",
    "C61_title",
    "C61_follow",
    "C61_other",
    "C61_foreign_refuted"
   ],
   "note": "C61_names, C61_title and C61_follow for loaded RMT modules, C61_other for other types. C61_foreign_refuted: given an array that is not the loaded module, the function can read before its start."
  },
  {
   "property": "C62",
   "status": "proved",
   "theorems": [
    "C62_description",
    "C62_described",
    "C62_saved",
    "C62_control_refuted"
   ],
   "note": "For strings of printable characters up to z; C62_control_refuted shows an extension with a control character that is described as cm3, as in C08_is_our_ext_refuted."
  },
  {
   "property": "C63",
   "status": "proved",
   "theorems": [
    "C63_reads",
    "C63_only",
    "C63_number",
    "C63_mute",
    "C63_sample_rate_refuted",
    "C63_missing_refuted"
   ],
   "note": "For the long form of every documented option but --sample-rate=, which C63_sample_rate_refuted shows is never accepted (asapconv.c:621-622 skips 13 characters and leaves the '='). C63_missing_refuted: asapconv -s dereferences NULL. process_file is taken to return; strtol is modelled from the C standard. C63_only: what is accepted beyond the documentation is --sample-rateN and a final -o, -a, -n or -d without a value."
  },
  {
   "property": "C64",
   "status": "proved",
   "theorems": [
    "C64_file",
    "C64_ends",
    "C64_samples"
   ],
   "note": "For a module that was loaded and played at 59 to 262143 Hz, without -a, -n and -d (the tags are set between loading and playing and are not in the states considered), whose header fits 8192 bytes: C21_long_title_refuted shows that ASAP_GetWavHeader does not check this. Writing to the file is taken to succeed."
  },
  {
   "property": "C65",
   "status": "proved",
   "theorems": [
    "C65_retag",
    "C65_defined",
    "C65_duration_refuted",
    "C65_address_refuted",
    "C65_one_file",
    "C65_standard",
    "C65_standard_again_refuted",
    "C65_accepts"
   ],
   "note": "For one output file of an input .sap file, texts other than <?>, and durations that end up below 100 minutes (C11 refutes the round trip for others). C65_retag is without and C65_standard is with --ntsc or --pal. C65_duration_refuted: the duration given for a song is lost if an earlier song has none. C65_address_refuted: the music address FFFF is accepted and ignored. C65_standard_again_refuted: asking for the standard that a file already has shortens or lengthens its durations again. C65_one_file: there is one output file, so one pass of the loop is all of it. XEX files, of which there can be one per song, and the native formats are not covered."
  }
 ]
}