{
 "C01": [
  "proved",
  "Round trip for all 0..5999999 ms; no text otherwise."
 ],
 "C02": [
  "proved",
  "Exact characterisation of the accepted strings; the stricter reading without trailing text is refuted."
 ],
 "C03": [
  "proved",
  "Exact characterisation of both number readers and of what the writer stores."
 ],
 "C04": [
  "proved",
  ""
 ],
 "C05": [
  "proved",
  ""
 ],
 "C06": [
  "proved",
  "SetDuration/SetLoop assume the number of songs does not exceed the arrays (32), which Load guarantees."
 ],
 "C07": [
  "proved",
  "Conversion to PAL of 1786886411 ms or more wraps int: refuted for those."
 ],
 "C08": [
  "proved",
  "IsOurFile exact for every name (int shift taken modulo 2^32). IsOurExt exact for printable characters, refuted for control characters."
 ],
 "C09": [
  "proved",
  "For every .sap name and every byte string; the step bound is that fuel equal to the file length suffices in every loop of the parser."
 ],
 "C10": [
  "proved",
  ""
 ],
 "C11": [
  "proved",
  "For texts other than <?> and durations below 100 minutes. A duration of 100 minutes or more makes the file unloadable, the text <?> and the MUSIC address of types B, D and S are lost: three refutations."
 ],
 "C12": [
  "proved",
  "Also says exactly when the window is too small."
 ],
 "C13": [
  "proved",
  "True and proved for .cmc/.cm3/.cmr/.dmc, .dlt, .fc, and for .cms of at least 1028 bytes, for every content; stores stay inside the arrays for every format. The statement as written is false of the code for .cms below 1028 bytes, .mpt, .tmc, .tm2 and .rmt: refuted with concrete files."
 ],
 "C14": [
  "proved",
  "Loading ends for every file of every supported extension that contains no RMT jump byte / CMC repeat line, with an explicit step bound, and the result does not depend on the fuel. False in general: two files on which loading never ends (CMC repeat + jump, RMT pattern jump to itself)."
 ],
 "C41": [
  "proved",
  "Holds for every native extension; the only exception is that an FC file can load with 0 songs, shown by a witness. C41_placed: the file is a single block, or for RMT two adjoining blocks, whose length is the file's, and a module that starts below the hardware ends below it."
 ],
 "C42": [
  "proved",
  "Proved for the CMC family without repeat commands and for DLT. False in general: a CMC file with repeats and an MPT file overflow the product in AddSong (witnesses)."
 ],
 "C28": [
  "proved",
  "All 151 documented opcodes are compared with an independent specification (CpuSpec.v), including N, V, Z, C and cycle counts; ADC and SBC additionally as plain arithmetic equations, binary and packed decimal."
 ],
 "C29": [
  "proved",
  "For all 256 opcodes, from any state with register ranges, and also for the POKEY registers."
 ],
 "C30": [
  "proved",
  "Any code may run between push and pull as long as the pushed bytes are still on the stack; restoring I while an interrupt is pending is excluded, since the interrupt is then taken at once."
 ],
 "C31": [
  "proved",
  "False: executing at FFFE or FFFF reads memory[65536], shown by a SAP file. Proved: no write outside memory or the delta buffers for any program; no read outside as long as the program counter stays at or below FFFD and no channel is muted."
 ],
 "C32": [
  "proved",
  "Every documented addressing mode agrees with the specification (C28 covers the other instructions). The page wrap of JMP (xxFF) is false: the high byte is taken from xx01 instead of xx00 (witness)."
 ],
 "C43": [
  "proved",
  "For any program and register contents; OutOfFuel in the model stands for a loop that exceeds a bound proved sufficient."
 ],
 "C24": [
  "proved",
  "Every stored sample is the saturated accumulator read back through the format; the buffer elsewhere is unchanged."
 ],
 "C25": [
  "proved",
  "All four registers (4, 5, 9, 17 bits), the RANDOM byte, the channel output that samples them and the phase across frames."
 ],
 "C26": [
  "proved",
  "True for every chip history between initialisation and muting (C26_mixing). False of playback through the API: PlaySong mutes the chips while the init routine runs, so a volume set there is subtracted later without having been added and the table is read out of bounds (C26_after_play_song_refuted)."
 ],
 "C27": [
  "proved",
  "For any register contents in the ranges C29 keeps."
 ],
 "C22": [
  "proved",
  "For every state reachable by loading any module and any sequence of PlaySong, Generate, Mute, DetectSilence and Seek within the duration, at 59..262143 Hz. A Seek past the end and a duration of 2^31 blocks or more make Generate return a negative count: two refutations."
 ],
 "C23": [
  "proved",
  "Both directions: the split calls succeed exactly when the single call does, with the same bytes and the same final state."
 ],
 "C33": [
  "proved",
  "False of the code: the DAC level of the previous play (sumDACOutputs) is not reset, so a replayed song starts with different samples. Refuted by a concrete file."
 ],
 "C34": [
  "proved",
  "The block position after a seek is exact and the reported time is exact to 1 ms at rates that are multiples of 100 Hz. The claim about the samples is false (the filter state and skipped samples are not reproduced; inside a frame the seek lands early; the reported time drifts at 11025 Hz): three refutations."
 ],
 "C44": [
  "proved",
  "Signed overflow of the mixing arithmetic and reads outside the tables and memory are not excluded (see C24-C26 for those)."
 ],
 "C21": [
  "proved",
  "ASAP_GetWavHeader stores exactly a RIFF/WAVE header (WavSpec.v) of the remaining samples, and that size is what ASAP_Generate delivers, in one call or any sequence. False parts are refuted: an odd number of 8-bit mono samples gives an odd data chunk without padding, a song without duration gets a negative size, sizes overflow int for very long songs, and a title longer than the setters accept (from a file) needs a longer buffer than 342 bytes."
 ],
 "C15": [
  "proved",
  "For every target except an executable: only the window changes, on success and on failure, and the position stays in it (C15_window); the only undefined behaviours are reads outside the module and negative copy lengths. Executables are packed from index 0 of the array, so below the start of the window bytes are stored (C15_start_refuted); they stay below the end (C15_window_xex). A file that loads can cause a memcpy with a negative size (C15_negative_copy_refuted). The fixed size of FlashPack's own compressed array is modelled, an overrun of it is UB in the model. For executables C15_window_xex is about calls that return; the title screen of C18 is one place where they may not."
 ],
 "C20": [
  "proved",
  "List contents, dispatch of every listed name and of the alias tm8, refusal of everything else. GetSaveExts itself can read outside the module for a file that loads (C20_out_of_bounds_refuted); C20_defined gives the condition under which it does not."
 ],
 "C18": [
  "proved",
  "False for some authors: a valid text of 105 characters naming several authors overruns the author buffer (C18_author_refuted), and so does no shorter one: every valid author of at most 104 characters, or of any accepted length without ' &', fits (C18_author). Titles always fit, with the exact layout (C18_title). The third buffer fits for every date and every duration up to INT_MAX-999 (C18_other), above that the rounding overflows (C18_duration_refuted, C18_other_bound)."
 ],
 "C45": [
  "proved",
  "For every history (an inductive relation of power-on, register writes and all other operations on a POKEY) the periods equal the function channel_period of the registers as last written."
 ],
 "C46": [
  "proved",
  "Ticks of channels that cannot be restarted by another one (linked pairs, two-tone mode), STIMER, and the interrupt timers started by IRQEN."
 ],
 "C35": [
  "proved",
  "For every file whose sectors form a finite chain, every sequence of Read, SetPosition, GetPosition and GetLength calls answers as for the concatenated data, from the path to the bytes. Needs a stream buffer whose byte 127 is at most 128 on 128-byte sectors (any contents otherwise): a stream that has read a corrupt file fails on a healthy one (refuted with a witness), and Read of an empty sector linking to itself never returns (refuted)."
 ],
 "C36": [
  "proved",
  "The position of every sector of any image that Open accepts, disjointness, and what is refused."
 ],
 "C37": [
  "proved",
  "Every listing ends, whatever the image, without leaving the 20 directory objects; paths have at most 259 characters."
 ],
 "C47": [
  "proved",
  "Exact, with an independent definition of directory records, names, kinds and nesting."
 ],
 "C48": [
  "proved",
  "Both directions, for every path."
 ],
 "C38": [
  "proved",
  "Every write stays in its array and the call returns, for every file; the only possible undefined behaviour is reading past the line array in a TITLE line of 99 or 100 characters that ends in a number after its last parenthesis, and that is refuted with a witness (C38_safe_refuted)."
 ],
 "C39": [
  "proved",
  "For every line and any previous contents of the array. A last line without a line feed is not seen (C39_end)."
 ],
 "C49": [
  "proved",
  "For every STIL.txt, up to one choice: whether a title whose times run past the end of the line is cut. Without such a line the result is exactly the specified function of the file (C49_exact); with one it depends on what the line array held before (C49_function_refuted). Song numbers from 0."
 ],
 "C50": [
  "proved",
  "For every path without NUL and every set of files."
 ],
 "C40": [
  "proved",
  "asapconv.c:200-325 and the loop calling it. C40_safe: no access outside the buffer or the pattern for any pattern, tags and buffer size, the input being a file with a supported extension (it has been loaded by then). C40_reserved: the reserved characters < > : / \\ | ? * of a name are those of the pattern and of the input path. C40_directory: the separators are those of the pattern. Quotation marks are not replaced by the code and not counted as reserved."
 ],
 "C51": [
  "proved",
  "C51_outputs gives the complete result of the naming loop, C51_distinct that no output overwrites another, C51_numerals that the song numbers exist and are unique."
 ],
 "C19": [
  "proved",
  "C19_stream: for every memory image and hole the emitted stream, decoded by the rules of 6502/fp3depk.asx (stated in FlashSpec.v without the compressor), writes exactly the loaded bytes and the five pokes. C19_packed: for every executable given as blocks (later block wins) the packed file is exactly the three blocks of the packed layout with the depacker assembled for its address, the program's run address and such a stream; otherwise the save fails, or compressed[] overflows, which needs more than the stated size. C19_fits: never for up to 57000 bytes in 100 blocks. The decoder reads the stream from its own storage: that the depacker does not overwrite the unread stream in place, and that its 6502 code implements the rules, are not part of the statement."
 ],
 "C16": [
  "proved",
  "C16_loaded: every native file that loads is saved byte for byte under its own extension into a large enough window starting at index 0; for RMT the header must be consistent (complete, stated in MoveSpec.v). C16_same is the same for any info without or with the original address. Not true for an RMT module beginning with two zeros (C16_zeros_refuted) and for a window with another start index (C16_start_refuted), both accepted by the API."
 ],
 "C17": [
  "proved",
  "C17_moved: what is saved after SetMusicAddress is the file with all address cells changed (MoveSpec.v gives the cells of each format), refused exactly when the end would exceed 65535. C17_pointers: same structure, every address differs by the distance unless 0 or 65535. C17_back: saving that at the original address restores the file. Needs a module that is not at address 0 and does not end at 65535: C17_zero_refuted shows a module at 0 whose start address is not moved."
 ],
 "C52": [
  "proved",
  "C52_sap_loads and C52_sap_only give the blocks in both directions; C52_native_memory the memory after a native load; C52_native_loads that all formats but RMT and FC load unless the module is over the player. The last sentence is false in three cases: C52_cut_refuted (a SAP file cut by up to four bytes is read past its end), C52_fc_refuted (an FC module longer than 62976 bytes) and C52_rmt_refuted (music and names ending with the memory) store past the 64K memory."
 ],
 "C53": [
  "proved",
  "C53_play_rate: PlaySong at two rates; C53_determined: frames decide; C53_generate, C53_seek_forward, C53_seek_back, C53_requests: what the calls do to the machine; C53_observed: what the same machine means. Where one of two runs ends in undefined behaviour or an error (possible only in the sound code, see C44) nothing is claimed. C53_example also shows that a seek back does not restore the memory of the song."
 ],
 "C54": [
  "proved",
  "C54_mask, C54_mask_only: exactly what the call changes. As stated the property is false: C54_joined_refuted (a muted channel joined with another still sounds), C54_timer_refuted (a muted channel never raises its timer interrupt, so the program runs differently), C54_volume_refuted (muting and unmuting around volume changes ends in an out-of-bounds read). True: a POKEY with all channels muted makes no sound (C54_silent*), and nothing but enabling a timer interrupt lets a program notice the muting (C54_program*)."
 ],
 "C55": [
  "proved",
  "C55_event: exactly when the player is called. C55_entry, C55_call: the formats with a plain call, from the event to the return. C55_interrupts: type D, given that the player keeps the stack above it and the return stub, and that no interrupt is pending where the program allows interrupts. C55_softsynth, C55_tmc: the two others. C55_init: the end of an initialisation routine."
 ],
 "C56": [
  "proved",
  "C56_scanlines with C56_session: every session of requests after PlaySong has the calls in exactly these scanlines. C56_loaded gives the condition on the interval after every load. C56_count: their number. C56_on_time: never late by a scanline. C56_prepared, C56_initialising: none during initialisation."
 ],
 "C57": [
  "proved",
  "C57_saved, C57_memory: the saved file is loaded with the same metadata and the same memory. C57_started: what PlaySong does for a native module; C57_init with C57_same_calls: the INIT routine of the saved file does the same, executed instruction by instruction by the CPU model, for every behaviour of the player routine that returns. C57_play, C57_tmc: the periodic calls. False without the conditions in `faithful`: C57_zeros_refuted, C57_backwards_refuted, C57_moved_refuted, C57_position_refuted, C57_overwritten_refuted."
 ],
 "C58": [
  "proved",
  "C58_request: the limit, and overflow above 1210 seconds. C58_counts, C58_seconds: playback goes on exactly until enough quiet frames. C58_ended: then nothing changes. C58_portions: independent of the portions. C58_restart, C58_seek: starting again and seeking. C58_quiet: a quiet frame changes neither the COVOX nor the speaker. The last sentence is false: C58_silent_refuted gives a program that sounds in every frame and is counted as silent, because only the volumes at the end of a frame are looked at."
 ],
 "C59": [
  "proved",
  "C59_depacker: the code does what the definition of the format says, for every stream that does not overwrite what is still needed. C59_packed: the streams of the compressor satisfy this for executables of at most 64 blocks, so such an executable, packed and loaded, reaches its run address with all its data in memory."
 ],
 "C60": [
  "proved",
  "C60_read and C60_write give every access at every address; C60_wsync, C60_vcount and C60_nmist say what the timing registers mean. Read-modify-write instructions outside page D2 read memory instead of the register (asap.c:5591), which is not part of these theorems. C60_nmist is about histories of writes to NMIRES and of frame starts; that nothing else changes NMIST is in C60_write for writes, and by inspection of the model for the rest."
 ],
 "C61": [
  "proved",
  "C61_names, C61_title and C61_follow for loaded RMT modules, C61_other for other types. C61_foreign_refuted: given an array that is not the loaded module, the function can read before its start."
 ],
 "C62": [
  "proved",
  "For strings of printable characters up to z; C62_control_refuted shows an extension with a control character that is described as cm3, as in C08_is_our_ext_refuted."
 ],
 "C63": [
  "proved",
  "For the long form of every documented option but --sample-rate=, which C63_sample_rate_refuted shows is never accepted (asapconv.c:621-622 skips 13 characters and leaves the '='). C63_missing_refuted: asapconv -s dereferences NULL. process_file is taken to return; strtol is modelled from the C standard. C63_only: what is accepted beyond the documentation is --sample-rateN and a final -o, -a, -n or -d without a value."
 ],
 "C64": [
  "proved",
  "For a module that was loaded and played at 59 to 262143 Hz, without -a, -n and -d (the tags are set between loading and playing and are not in the states considered), whose header fits 8192 bytes: C21_long_title_refuted shows that ASAP_GetWavHeader does not check this. Writing to the file is taken to succeed."
 ],
 "C65": [
  "proved",
  "For one output file of an input .sap file, texts other than <?>, and durations that end up below 100 minutes (C11 refutes the round trip for others). C65_retag is without and C65_standard is with --ntsc or --pal. C65_duration_refuted: the duration given for a song is lost if an earlier song has none. C65_address_refuted: the music address FFFF is accepted and ignored. C65_standard_again_refuted: asking for the standard that a file already has shortens or lengthens its durations again. C65_one_file: there is one output file, so one pass of the loop is all of it. XEX files, of which there can be one per song, and the native formats are not covered."
 ]
}