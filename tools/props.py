import json
P=[]
def p(title,statement,quant,why,anchors):
    P.append(dict(id="C%02d"%(len(P)+1),title=title,statement=statement,quantifier=quant,why_tests_cant=why,anchors=anchors))
p("Song durations survive text formatting",
 "For every duration of 0 to 5,999,999 ms the text produced by ASAPWriter_DurationToString is at most 9 characters and ASAPInfo_ParseDuration of that text is exactly the original number of milliseconds; for any other value no text is produced.",
 "every 32-bit duration value","6 million values times the exact text layout; a test samples a few of them",
 ["asap.c:ASAPWriter_DurationToString","asap.c:ASAPInfo_ParseDuration","asapwriter.fu","asapinfo.fu:DurationParser"])
p("The duration parser accepts exactly the documented syntax",
 "ASAPInfo_ParseDuration returns a non-negative number of milliseconds exactly for strings of the form [M]M:SS or [S]S, optionally followed by .m, .mm or .mmm (anything after the third millisecond digit is ignored), with seconds below 60 after a colon, and the number returned is the arithmetic value of the text; every other string is rejected; it never reads past the end of the string.",
 "every character string","the set of strings is infinite",
 ["asap.c:DurationParser_Parse","asap.c:DurationParser_ParseDigit","asapinfo.fu:DurationParser"])
p("Numeric SAP tags survive a write/read cycle",
 "Any 16-bit address written as a SAP tag is read back as the same address and any decimal count written is read back as the same number provided it is inside the range the tag accepts; the reader rejects every argument that is empty, has a character that is not a digit, or whose value lies outside the accepted range.",
 "every number and every argument string","infinite argument strings and 65536 addresses",
 ["asap.c:ASAPWriter_WriteHexSapTag","asap.c:ASAPWriter_WriteDec","asap.c:ASAPInfo_ParseHex","asap.c:ASAPInfo_ParseDec"])
p("Metadata setters validate and touch only their field",
 "ASAPInfo_SetAuthor/SetTitle/SetDate succeed exactly when the text has at most 127 characters, all of them ASCII 32 to 124 other than ` and {; on success the corresponding getter returns exactly that text and every other attribute is unchanged; on failure nothing changes.",
 "every text and every prior state","needs all strings and all prior states",
 ["asap.c:ASAPInfo_SetAuthor","asap.c:ASAPInfo_SetTitle","asap.c:ASAPInfo_SetDate","asap.c:ASAPInfo_IsValidChar"])
p("Date queries agree with the date grammar",
 "ASAPInfo_GetYear, GetMonth and GetDayOfMonth return a value other than -1 exactly for dates of the form YYYY, MM/YYYY or DD/MM/YYYY, and then return the decimal value of the corresponding digits.",
 "every date text accepted by SetDate or found in a file","infinite set of strings",
 ["asap.c:ASAPInfo_GetYear","asap.c:ASAPInfo_GetMonth","asap.c:ASAPInfo_GetDayOfMonth"])
p("Song-indexed setters are range checked and local",
 "SetDefaultSong, SetDuration and SetLoop succeed exactly for song numbers from 0 to the number of songs minus 1, change only the addressed attribute of the addressed song, and otherwise change nothing; SetMusicAddress accepts exactly 0..65534.",
 "every info state, song number and value","every state times every integer",
 ["asap.c:ASAPInfo_SetDefaultSong","asap.c:ASAPInfo_SetDuration","asap.c:ASAPInfo_SetLoop","asap.c:ASAPInfo_SetMusicAddress"])
p("Switching between PAL and NTSC rescales durations and is nearly reversible",
 "Setting the NTSC flag sets the player rate to 262 (312 for PAL) scanlines and scales each known duration by the frame-rate ratio rounding down, leaving unknown and zero durations; PAL->NTSC->PAL loses less than 3 ms and never gains, and CanSetNtsc remains true afterwards.",
 "every info state, every duration that fits in int before and after","all 32-bit durations; rounding error bound",
 ["asap.c:ASAPInfo_SetNtsc","asap.c:ASAPInfo_CanSetNtsc"])
p("Supported file names are recognised exactly",
 "ASAPInfo_IsOurFile answers true exactly for file names whose text after the last dot in the last path component is, ignoring ASCII case, one of the supported extensions; a name without a dot or that begins with its only dot is refused; only characters of the string are read.",
 "every file name string","infinite set of names",
 ["asap.c:ASAPInfo_IsOurFile","asap.c:ASAPInfo_GetPackedExt","asap.c:ASAPInfo_PackExt","asap.c:ASAPInfo_IsOurPackedExt"])
p("Parsing any SAP file is memory safe and terminates",
 "ASAPInfo_Load of a .sap file reads only the moduleLen bytes given, never performs undefined arithmetic and returns after a number of steps bounded by the file size, for any file contents.",
 "every byte string as a SAP file","adversarial inputs of every size",
 ["asap.c:ASAPInfo_ParseSap","asap.c:ASAPInfo_HasStringAt","asap.c:ASAPInfo_ParseText","asap.c:ASAPInfo_ParseDec","asap.c:ASAPInfo_ParseHex"])
p("A SAP file that loads has usable metadata",
 "After ASAPInfo_Load of a SAP file succeeds: 1 to 32 songs, default song below the number of songs, player rate at least 1 scanline, the addresses required by the SAP type are present (INIT+PLAYER for B, PLAYER+MUSIC for C, INIT for D and S), all addresses are 16-bit, and the reported header length is the position of the two FF bytes starting the binary part.",
 "every byte string as a SAP file","all inputs and all tag orders",
 ["asap.c:ASAPInfo_ParseSap","asap.c:ASAPInfo_Load"])
p("Saving as SAP and loading it back preserves the metadata",
 "For a loaded SAP file whose metadata was edited through the setters, writing it with ASAPWriter_Write as .sap and loading the result yields the same author, title, date, songs, default song, channels, NTSC flag, type, player rate, addresses, and the durations and loop flags up to the first song without a duration (or of 100 minutes or more).",
 "every info state satisfying the loader's guarantees and every payload","all metadata combinations and payloads",
 ["asap.c:ASAPWriter_WriteSapHeader","asap.c:ASAPWriter_WriteExecutableFromSap","asap.c:ASAPInfo_ParseSap"])
p("Saving a SAP file as SAP keeps the Atari binary part byte for byte",
 "When ASAPWriter_Write to .sap of a loaded SAP file succeeds, the bytes after the new text header equal the bytes of the input from its header length to its end, and the output length is the sum of the two.",
 "every module and every info state","all payload contents and lengths",
 ["asap.c:ASAPWriter_WriteExecutable","asap.c:ASAPWriter_WriteExecutableFromSap","asap.c:ASAPWriter_WriteBytes"])
p("Native module loading never reads outside the file",
 "ASAPInfo_Load of a native module (CMC family, DLT, MPT, RMT, TMC, TM2, FC) reads only the moduleLen bytes given, for any file contents.",
 "every byte string for every native extension","adversarial inputs",
 ["asap.c:ASAPInfo_ParseCmc","asap.c:ASAPInfo_ParseDlt","asap.c:ASAPInfo_ParseMpt","asap.c:ASAPInfo_ParseRmt","asap.c:ASAPInfo_ParseTmc","asap.c:ASAPInfo_ParseTm2","asap.c:ASAPInfo_ParseFc"])
p("Native module loading always terminates",
 "ASAPInfo_Load of a native module returns after finitely many steps for any file contents.",
 "every byte string for every native extension","a hang cannot be distinguished from slowness by a test and inputs are infinite",
 ["asap.c:ASAPInfo_ParseCmcSong","asap.c:ASAPInfo_ParseDltSong","asap.c:ASAPInfo_ParseMptSong","asap.c:ASAPInfo_ParseRmtSong","asap.c:ASAPInfo_ParseTmcSong","asap.c:ASAPInfo_ParseTm2Song","asap.c:ASAPInfo_ParseFcSong"])
p("The writer stays inside the caller's output window",
 "After ASAPWriter_SetOutput(output, start, end) no call of ASAPWriter_Write stores to output at an index below start or at or above end, whatever the info and module; when it reports success the returned position is at most end.",
 "every window, info, module and target extension","all window sizes and inputs",
 ["asap.c:ASAPWriter_SetOutput","asap.c:ASAPWriter_WriteByte","asap.c:ASAPWriter_WriteBytes","asap.c:ASAPNativeModuleWriter_Write","asap.c:FlashPack_Compress"])
p("Saving a native module unmodified reproduces the file",
 "For a native module that is saved in its own format without changing its music address and whose structure is well formed, ASAPWriter_Write outputs exactly the input bytes.",
 "every well-formed native module of each type","all module contents and lengths",
 ["asap.c:ASAPNativeModuleWriter_Write","asap.c:ASAPNativeModuleWriter_RelocateWords","asap.c:ASAPNativeModuleWriter_RelocateLowHigh","asap.c:ASAPWriter_WriteNative"])
p("Relocating a native module and relocating it back is the identity",
 "If a native module is saved at another music address and the result is saved again at the original address, and no internal pointer crosses 0 or 65535, the original file is obtained; every non-null pointer in the intermediate file differs from the original by exactly the address difference.",
 "every module, every target address without wrap-around","all modules and addresses",
 ["asap.c:ASAPNativeModuleWriter_RelocateBytes","asap.c:ASAPNativeModuleWriter_RelocateWords","asap.c:ASAPInfo_SetMusicAddress"])
p("The executable's title screen fits its buffers",
 "For author, title and date texts that the metadata setters accept, formatting the title screen of an executable never stores outside its three 256-byte line buffers, and every text is wrapped so that it occupies whole 32-column lines without losing non-space characters.",
 "every triple of valid texts, every duration","all texts up to 127 characters",
 ["asap.c:ASAPWriter_FormatXexInfoText","asap.c:ASAPWriter_PadXexInfo","asap.c:ASAPWriter_WriteXexInfo"])
p("Executable packing is lossless",
 "The packed stream produced for an executable, decoded by the published decompression rules, writes exactly the bytes of the unpacked executable's blocks at their addresses (last block wins) and nothing else except the five hardware pokes.",
 "every memory image","all 64K memory images",
 ["asap.c:FlashPack_Compress","asap.c:FlashPack_CompressMemoryArea","asap.c:FlashPack_PutItems","asap.c:FlashPackItem_WriteValueTo","6502/fp3depk.asx"])
p("Offered save formats are the ones the writer accepts",
 "Every extension listed by ASAPWriter_GetSaveExts is one that ASAPWriter_Write dispatches on (never rejected for being an unknown target), at most 3 are listed, and an extension not listed and not an alias is always refused.",
 "every info state and module","all info/module combinations",
 ["asap.c:ASAPWriter_GetSaveExts","asap.c:ASAPWriter_Write","asap.c:ASAPInfo_GetOriginalModuleExt"])
p("The WAV header describes the samples that follow",
 "For every song duration, sample rate, sample format, channel count and metadata, ASAP_GetWavHeader's RIFF size, format fields and data size agree with the number of bytes of samples ASAP_Generate will deliver for that duration, chunks are even-sized and lengths are little endian.",
 "every duration, rate, format, channel count, metadata","the product of all parameters",
 ["asap.c:ASAP_GetWavHeader","asap.c:ASAP_PutWavMetadata","asap.c:ASAP_PutLittleEndian"])
p("Sample generation accounts for every block",
 "ASAP_Generate returns a multiple of the block size, never more than the buffer length, writes exactly the returned bytes, and advances the play position by exactly the returned number of blocks; the total delivered over any sequence of calls never exceeds the duration passed to PlaySong.",
 "every playback state, every sequence of buffer sizes and every emulated program","unbounded call sequences and program behaviours",
 ["asap.c:ASAP_Generate","asap.c:ASAP_GenerateAt","asap.c:PokeyPair_Generate"])
p("Generated audio does not depend on the buffer sizes",
 "Calling ASAP_Generate with a buffer of n blocks and then with m blocks yields the same bytes and leaves the same state as one call with n+m blocks, for every emulated program, as long as silence detection is off.",
 "every state, every split of the buffer","unbounded splits and programs",
 ["asap.c:ASAP_GenerateAt","asap.c:PokeyPair_Generate"])
p("The three sample formats carry the same signal",
 "For every internal accumulator value the S16 formats carry the same 16-bit sample within -32767..32767 in opposite byte orders and U8 carries its high byte offset by 128; each consumes 1 or 2 bytes per channel.",
 "every accumulator state","2^32 accumulator values",
 ["asap.c:Pokey_StoreSample"])
p("POKEY noise comes from maximal-length shift registers",
 "The 9-bit and 17-bit noise sources emulated have period exactly 511 and 131071, every nonzero register state occurs, and RANDOM reads eight consecutive bits of that sequence.",
 "every time index","131071 states; periodicity for all times",
 ["asap.c:PokeyPair_Construct","asap.c:PokeyPair_Peek","pokey.fu"])
p("POKEY mixing index stays within the output table",
 "During playback without muting, whatever sequence of register writes a program performs at whatever cycles, the sum that indexes the 61-entry output table stays within 0..60 and equals the sum of the currently high channels' volumes.",
 "every sequence of register writes and time steps","unbounded histories of register writes",
 ["asap.c:Pokey_AddDelta","asap.c:PokeyChannel_SetAudc","asap.c:PokeyChannel_Slope","asap.c:Pokey_Poke"])
p("POKEY tick processing always terminates",
 "Generating audio up to any cycle takes finitely many steps for any register contents, after which no unmuted channel has a pending tick before that cycle.",
 "every register state and every cycle limit","all register contents",
 ["asap.c:Pokey_GenerateUntilCycle","asap.c:PokeyChannel_DoTick"])
p("Emulated 6502 arithmetic is exact",
 "ADC and SBC in binary mode compute the 8-bit sum/difference with carry and signed overflow for all operands; in decimal mode they compute the decimal sum/difference for all valid BCD operands; shifts, rotates, compares and increments set the flags defined for the 6502.",
 "every operand, accumulator and flag combination","all operand combinations and flag representations",
 ["asap.c:Cpu6502_AddWithCarry","asap.c:Cpu6502_SubtractWithCarry","asap.c:Cpu6502_RotateLeft","asap.c:Cpu6502_RotateRight"])
p("6502 registers and flags keep their hardware ranges",
 "Executing any instruction from any state with 8-bit registers, valid flag encodings and byte memory leaves 8-bit registers, valid flag encodings and byte memory.",
 "every opcode and every machine state","all machine states",
 ["asap.c:Cpu6502_DoFrame"])
p("6502 stack operations are inverse",
 "Pushing then pulling the accumulator or the flags restores them, JSR followed by RTS continues after the JSR, and BRK/IRQ followed by RTI resumes with the same flags, for every stack pointer including wrap-around.",
 "every machine state","all states incl. stack wrap",
 ["asap.c:Cpu6502_PushPc","asap.c:Cpu6502_PullFlags","asap.c:Cpu6502_PushFlags"])
p("The emulated program cannot make the emulator access memory outside the 64K image",
 "Whatever code a module contains, executing it never reads or writes outside the 65536 bytes of emulated memory.",
 "every machine state","all programs",
 ["asap.c:Cpu6502_DoFrame"])
p("Documented 6502 addressing modes compute the hardware's effective address",
 "For every documented addressing mode the address used is the one a 6502 would use, including zero-page wrap-around and the indirect jump's page wrap.",
 "every opcode, operand and register value","all operands",
 ["asap.c:Cpu6502_DoFrame"])
p("Replaying a song gives the same audio",
 "Calling ASAP_PlaySong for the same song and duration twice on the same object and generating the same amount yields identical bytes.",
 "every module and every history before the second PlaySong","needs all histories",
 ["asap.c:ASAP_PlaySong","asap.c:Pokey_Initialize"])
p("Seeking positions playback where requested",
 "After ASAP_Seek to a position not beyond the duration, ASAP_GetPosition reports that position (rounded to the block) and ASAP_Generate continues with the same bytes uninterrupted playback would have produced there.",
 "every position and prior history","unbounded histories",
 ["asap.c:ASAP_SeekSample","asap.c:ASAP_Seek","asap.c:ASAP_GetPosition"])
p("Files read from a disk image are the concatenation of their sectors",
 "Reading a file of an ATR image through AATRFileStream returns, for any sequence of read lengths, consecutive pieces of the concatenation of the data bytes of its sector chain, ending at its end.",
 "every disk image and every sequence of read sizes","all images and read schedules",
 ["aatr.fu:AATRFileStream","aatr.fu:AATR.ReadSector"])
p("Disk image sector addressing is correct",
 "The byte range read for a sector lies where the ATR format puts it (the first three sectors are 128 bytes long, then full-size sectors) and ranges of different sectors never overlap.",
 "every sector number and sector size","all sector numbers",
 ["aatr.fu:AATR"])
p("Listing a disk image always ends",
 "Enumerating all files of any disk image terminates and keeps its directory stack and path within fixed bounds, even with cyclic subdirectories.",
 "every disk image","adversarial images",
 ["aatr.fu:AATRRecursiveLister","aatr.fu:AATRDirectory"])
p("STIL parsing is memory safe",
 "Loading STIL information from any text file never reads or writes outside the fixed-size line, title, author and comment buffers.",
 "every file contents","adversarial files",
 ["astil.c:ASTIL_ReadLine","astil.c:ASTIL_ReadComment","astil.c:ASTILCover_Load","astil.c:ASTIL_ReadStilBlock"])
p("STIL line splitting returns the line's text",
 "ASTIL_ReadLine returns the first 100 characters of the next line with carriage returns and trailing blanks removed, and consumes exactly that line.",
 "every file contents","all inputs",
 ["astil.c:ASTIL_ReadLine"])
p("asapconv builds the output name inside its buffer and neutralises path characters",
 "Expanding an output pattern never stores outside the output file-name buffer, and text substituted for a placeholder contains no path separator or other reserved character.",
 "every pattern, tag text and input name","all strings",
 ["asapconv.c:open_output_file"])
p("What a successful native module load guarantees",
 "After ASAPInfo_Load of a native module succeeds there are between 1 and 32 songs, the default song is 0, exactly the durations of existing songs are non-negative, author and date are empty, the title is printable text, channels is 1 or 2, fastplay is one of the four supported rates, the music address is 16-bit and the module type is the one the extension selects.",
 "every byte string for every native extension","all inputs",
 ["asap.c:ASAPInfo_Load","asap.c:ASAPInfo_ParseCmc","asap.c:ASAPInfo_ParseFc"])
p("Native song durations are computed without signed overflow",
 "Computing song durations while loading a native module involves no signed integer overflow.",
 "every byte string for every native extension","all inputs",
 ["asap.c:ASAPInfo_AddSong","asap.c:ASAPInfo_ParseCmcSong","asap.c:ASAPInfo_ParseMptSong"])
p("Emulating a frame always ends",
 "Whatever program a module contains and whatever it has written to the POKEYs, emulating one frame ends after finitely many instructions, scanlines and POKEY ticks.",
 "every program, every register contents","all programs, including endless loops",
 ["asap.c:ASAP_DoFrame","asap.c:ASAP_Do6502Frame","asap.c:Cpu6502_DoFrame","asap.c:Pokey_GenerateUntilCycle"])
p("Playback stores only into its own buffers",
 "At every sample rate from 2578 to 69704 Hz, PlaySong, Generate and Seek within the duration, on any module and after any sequence of such calls, never store outside the sound buffers, the emulated memory or the caller's buffer and never copy between overlapping regions; they also always return.",
 "every module, every sequence of calls, every sample rate in the range","all programs and all call sequences",
 ["asap.c:ASAP_PlaySong","asap.c:ASAP_Generate","asap.c:ASAP_SeekSample","asap.c:Pokey_AddDelta","asap.c:Pokey_StartFrame"])
p("The pitch of a channel follows from the last register writes",
 "After any history of register writes, sound generation, frame changes, interrupts and muting, the period of every POKEY channel is the one that the values last written to AUDF1-AUDF4 and AUDCTL define: 64 kHz, 15 kHz or full-speed clock, 8-bit or two linked channels.",
 "every history of register writes, in any order and with any values","unbounded histories, all register combinations",
 ["asap.c:Pokey_Poke","asap.c:PokeyChannel_Initialize"])
p("Channels tick exactly on schedule",
 "Sound generation up to a cycle advances every channel that no other channel restarts to its first multiple of the period not before that cycle; STIMER restarts every running channel one period ahead, and enabling a timer interrupt schedules it for the first tick that is not in the past.",
 "every POKEY state, every cycle","all states",
 ["asap.c:Pokey_GenerateUntilCycle","asap.c:PokeyChannel_DoTick","asap.c:PokeyChannel_DoStimer","asap.c:Pokey_Poke"])
p("Listing a disk image finds exactly its files",
 "Calling AATRRecursiveLister.NextFile until it returns null gives exactly the files that the directory records of the image contain, down to the 20th level, in order, each with its full path and with the directory iterator at that file.",
 "every disk image","all directory structures",
 ["aatr.fu:AATRRecursiveLister.NextFile","aatr.fu:AATRDirectory.NextEntry","aatr.fu:AATRDirectory.GetFilenamePart"])
p("Looking up a path on a disk image finds the file of that path",
 "AATRDirectory.FindEntryRecursively returns true exactly if following the first entry of each name leads to an entry, and then the iterator is at that entry.",
 "every disk image, every path","all images and paths",
 ["aatr.fu:AATRDirectory.FindEntryRecursively","aatr.fu:AATRDirectory.FindEntry","aatr.fu:AATRDirectory.NextEntry"])
p("STIL information is what STIL.txt says about the song",
 "After ASTIL_Load the getters return what the lines of STIL.txt say: the comment of the song's directory, of the file and of the song number, the name, the author and up to ten covers with title, artist, comment and times, independently of anything loaded before.",
 "every STIL.txt, every path, every song number","all texts, all previous contents of the structure",
 ["astil.c:ASTIL_Load","astil.c:ASTIL_ReadStilBlock","astil.c:ASTILCover_Load","astil.c:ASTIL_ReadComment"])
p("STIL.txt is looked for in every directory above the song, innermost first",
 "ASTIL_Load uses the first existing file among Docs/STIL.txt and STIL.txt in the directory of the song, then in its parent, and so on, with the separator of the given path; ASTIL_GetStilFilename returns its name, and if there is none the call fails and all information is empty.",
 "every path, every set of existing files","all paths",
 ["astil.c:ASTIL_Load","astil.c:ASTIL_FindPreviousSlash","astil.c:ASTIL_GetStilFilename"])
p("asapconv writes one file per requested song under the name the pattern spells",
 "asapconv opens exactly the outputs the options ask for: with %s in the pattern one for each song in order, otherwise one for the selected or the default song. Each is named by replacing the placeholders and, for .EXT and DIR/.EXT, inserting the input file's name; no two outputs share a name, and contradictory options, unknown placeholders, over-long names and files that cannot be written end in an error.",
 "every pattern, input file, set of tags, song selection and number of songs","all patterns",
 ["asapconv.c:open_output_file","asapconv.c:process_file","asapconv.c:convert_to_wav","asapconv.c:convert_to_module"])
p("Loading puts the data of a file where the file says",
 "After ASAP_Load of a SAP file the emulated memory holds the file's blocks, a later one over an earlier one, and zeros elsewhere; exactly the files made of such blocks load. After ASAP_Load of a native module the module is at its address, the player routine at the player's address, they do not overlap and the rest of the memory is unchanged but for address 19456. No load reads outside the file or stores outside the 64K memory.",
 "every file, every previous state of the object","all files",
 ["asap.c:ASAP_Load","asap.c:ASAP6502_GetPlayerRoutine","asap.c:ASAPInfo_ParseModule"])
p("The emulation does not depend on the sound settings",
 "The sample rate, the sample format, the buffer sizes passed to Generate, silence detection and seeking forward do not influence the emulated machine: after the same number of emulated frames since PlaySong the memory, the CPU registers, the channel volumes and everything a program can read are the same.",
 "every module, every two sample rates, every sequence of calls","all programs, all call sequences",
 ["asap.c:ASAP_PlaySong","asap.c:ASAP_Generate","asap.c:ASAP_SeekSample","asap.c:ASAP_DoFrame","asap.c:Pokey_Poke","asap.c:PokeyPair_Generate"])
p("Muting silences exactly the chosen channels and changes nothing else",
 "ASAP_MutePokeyChannels(mask) silences channel i exactly if bit i of the mask is set, changes nothing else of the machine, does not influence what the program computes and can be undone.",
 "every state, every mask, every program","all programs and all moments of muting",
 ["asap.c:ASAP_MutePokeyChannels","asap.c:Pokey_Mute","asap.c:PokeyChannel_SetMute","asap.c:PokeyChannel_SetAudc","asap.c:Pokey_Poke","asap.c:Pokey_GenerateUntilCycle"])
p("Calling the player enters and leaves it as the formats define",
 "At the start of a scanline in which it is due, and at no other time, the player is called: at its documented entry point for each format, with the caller's registers; for type D after saving the program's state, which is restored when the player returns; for type S as the two SoftSynth counters; for TMC alternately at its two entry points. The stack is balanced and the CPU waits after the player has returned.",
 "every machine state, every program, every player","all states",
 ["asap.c:ASAP_Call6502","asap.c:ASAP_Call6502Player","asap.c:ASAP_HandleEvent","asap.c:ASAP_Do6502Init"])
p("The player is called every FASTPLAY scanlines",
 "From ASAP_PlaySong on the player is called in the scanlines 0, f, 2f, ... and in no others, where f is the FASTPLAY interval of the module and scanlines are counted over all frames (312 per frame in PAL, 262 in NTSC), whatever the program does and however the samples are asked for; it is not called during initialisation.",
 "every module, every program, every sequence of calls of Generate, Seek forward, SetSampleRate and DetectSilence","unbounded playback, all programs",
 ["asap.c:ASAP_HandleEvent","asap.c:ASAP_Do6502Frame","asap.c:ASAP_DoFrame","asap.c:ASAP_PlaySong","asap.c:Cpu6502_DoFrame"])
p("A native module saved as SAP is initialised and played as the native module",
 "ASAPWriter_Write of a loaded native module as .sap gives a file that ASAP_Load accepts, with the same metadata, and with the module and the player routine at the same addresses. Its INIT routine enters the player routine with the registers with which ASAP_PlaySong enters it for the native module, and the routine called periodically is the same, for TMC modules in the same rhythm.",
 "every native module of every format, every song, every behaviour of the player routine","all modules; execution of generated 6502 code",
 ["asap.c:ASAPWriter_WriteNative","asap.c:ASAPWriter_WriteSapHeader","asap.c:ASAPWriter_WriteExecutable","asap.c:ASAPWriter_WriteCmcInit","asap.c:ASAP_PlaySong","asap.c:ASAP_Do6502Init"])
p("Silence detection ends playback exactly after the requested silence",
 "After ASAP_DetectSilence(n) ASAP_Generate stops exactly at the first frame at which the last ceil(n*1773447/cycles per frame) frames were quiet: all channel volumes 0 at the end of the frame and neither the speaker nor the COVOX used in it. The moment does not depend on the sizes of the buffers, the sample format or the sample rate. From then on Generate returns 0 and changes nothing until a song is started; starting a song and seeking back start counting again. What is counted as silence is silent.",
 "every module, every program, every time, every sequence of calls of Generate","unbounded playback, all programs",
 ["asap.c:ASAP_DetectSilence","asap.c:ASAP_GenerateAt","asap.c:ASAP_PlaySong","asap.c:ASAP_SeekSample","asap.c:PokeyPair_IsSilent","asap.c:ASAP_PokeHardware"])
p("A packed executable unpacks itself",
 "The 88 bytes of 6502 code that FlashPack_Compress writes, run on a 6502 with the packed executable loaded and any registers, unpack the stream as the format is defined and end with a jump to the program's run address, with the stack pointer unchanged and, but for nine bytes the code uses for itself, with the memory that loading the unpacked executable gives.",
 "every stream that leaves the bytes still to be read alone, every executable of at most 64 blocks, every processor state whose stack does not point into the data","all executables; execution of generated 6502 code",
 ["asap.c:FlashPack_Compress","asap.c:FlashPack_CompressMemoryArea","asap.c:FlashPack_PutItems","asap.c:FlashPack_FindHole"])
p("A program sees the hardware registers of an Atari",
 "Every read and every write of the emulated program at every address reaches the register that the address selects, with the mirrors of GTIA (32 bytes), POKEY and ANTIC (16 bytes) in their pages, and memory elsewhere. VCOUNT is half the number of the scanline, WSYNC waits until cycle 106 of a scanline, NMIST tells whether there was a vertical blank since NMIRES was written, PAL tells the TV standard, RANDOM is the shift register of the POKEY that the address selects, and the speaker and the COVOX change the sound only if their level changes.",
 "every address, every value, every machine state","65536 addresses times all states; timing relations over unbounded playback",
 ["asap.c:ASAP_PeekHardware","asap.c:ASAP_PokeHardware","asap.c:PokeyPair_Peek","asap.c:PokeyPair_Poke","asap.c:Cpu6502_Peek","asap.c:Cpu6502_Poke","asap.c:ASAP_Do6502Frame"])
p("The title and the instrument names of an RMT module are found",
 "For every module that ASAPInfo_Load accepts as RMT, the title is the text at the start of the second block up to its zero, at most 127 characters, with blanks for characters ASAP does not show, and ASAPInfo_GetInstrumentNamesOffset returns the offset just after that zero, or -1 if there is no zero or nothing after it, without reading outside the module. For other types it returns -1.",
 "every module accepted as RMT, including those whose blocks overlap","all files",
 ["asap.c:ASAPInfo_GetInstrumentNamesOffset","asap.c:ASAPInfo_ParseRmt","asap.c:ASAPInfo_ParseModule"])
p("File name extensions have the descriptions of their formats",
 "ASAPInfo_GetExtDescription returns the name of the format for exactly the extensions for which ASAPInfo_IsOurExt returns true and for xex, in upper and lower case, and so for every extension that ASAPWriter_GetSaveExts returns.",
 "every string","all strings",
 ["asap.c:ASAPInfo_GetExtDescription","asap.c:ASAPInfo_PackExt","asap.c:ASAPInfo_IsOurExt","asap.c:ASAPWriter_GetSaveExts"])
p("asapconv reads its command line as documented",
 "For every command line written as asapconv --help documents, every input file is converted with exactly the options before it, in the short and in the long form, later options replacing earlier ones, mute channels adding up and a music name being for the next file only; the exit code is 0 exactly if the last argument is not an option. A number is accepted exactly if it is a numeral of its base within its limits, however long it is. Nothing else is accepted.",
 "every sequence of options and files, every string, every width of long","all command lines; unbounded strings",
 ["asapconv.c:main","asapconv.c:parse_int","asapconv.c:set_song","asapconv.c:set_sample_rate","asapconv.c:set_time","asapconv.c:set_mute_mask","asapconv.c:set_music_address","asapconv.c:apply_tags"])
p("asapconv writes the whole song, behind a header that describes it",
 "A WAV file that asapconv writes is a RIFF/WAVE header for exactly the bytes that follow it, and these bytes, and those of a RAW file, are the samples of the whole song: as many as the requested duration, else the one in the file, else three minutes, has, and the same as one call of ASAP_Generate with a buffer that is big enough delivers. Writing ends.",
 "every module, song, sample rate, format, duration and mute mask, every number of files written before","all modules and programs; unbounded songs",
 ["asapconv.c:convert_to_wav","asapconv.c:play_song","asap.c:ASAP_GetWavHeader","asap.c:ASAP_Generate","asap.c:ASAP_PlaySong"])
p("asapconv changes what is asked for in a SAP file and nothing else",
 "A SAP file that asapconv writes from a SAP file has the binary part of that file, byte for byte, and loads with the author, title, date and (for type C, and below FFFF) music address asked for on the command line, with the given duration of the song, and with everything else as it was; only the durations behind the first unknown one become unknown. If a TV standard is asked for, the file must be of type B and play once per frame; it is then for that standard, and the known durations are converted to the same number of frames. A file is written exactly if the texts are valid, the standard can be changed if that is asked for, and the file fits in 65000 bytes. One file is written per input file, for the song asked for or else the default one. Converting a loaded SAP file to SAP never has undefined behaviour.",
 "every SAP file, song and set of options, texts other than <?> and durations below 100 minutes","all files times all options",
 ["asapconv.c:convert_to_module","asapconv.c:apply_tags","asap.c:ASAPWriter_Write","asap.c:ASAPInfo_SetMusicAddress"])
open('/verif/properties.jsonl','w').write(''.join(json.dumps(x)+'\n' for x in P))
print(len(P))
