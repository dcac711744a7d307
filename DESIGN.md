# Formal model of ASAP (Another Slight Atari Player) in Rocq/Coq 8.16.1

The subject is the portable core of epi/asap: the checked-in C file `asap.c`
(generated by the Fusion transpiler from `asap.fu`, `asapinfo.fu`,
`asapwriter.fu`, `cpu6502.fu`, `flashpack.fu`, `pokey.fu`, `asap6502.fu`), plus
`aatr.fu` (ATR disk images; no C is checked in for it), `astil.c` (STIL
database reader) and the file-name logic of `asapconv.c`.  Nothing in `/repo` is built or
run; the model is a transcription made by reading.

## Semantics used by the model

* C `int` values are unbounded `Z`, unless a property is about overflow; where the C code
  stores to a `uint8_t` the model takes the value modulo 256, where it
  shifts/masks the model uses `Z.shiftr`/`Z.land` (two's complement,
  arithmetic shift, which is what the supported compilers do).
* A computation has one of four outcomes (`Base.v`): `Ok x`, `Fail` (the C
  function returns `false`/`-1`/`NULL`; in Fusion: throws), `UB` (an array access
  outside its object, negative `memcpy` size, negative shift, ...: undefined behaviour in C) and
  `OutOfFuel` (only for loops that are not structurally bounded; theorems exclude it or are about it).
* Byte arrays the code only reads are `list Z`; reads go through a checked
  accessor that yields `UB` outside the array.  Small mutable arrays are lists with checked
  `set_nth`; the 64 KB memory of the emulated computer is a finite map (`MemModel.v`: binary
  trie, default 0) with explicit bounds checks that yield `UB`.
* Samples: the sinc interpolation table is computed with floating point when a Pokey is constructed; the
  model takes its 1024x32 integers as an arbitrary function (`PokeyModel.v`), so theorems hold for every table.
* Strings are `list Z` of character codes without the terminating NUL (so a
  C string never contains 0); reading index `length` yields 0, beyond it is `UB`.

## Layout of `rocq/theories`

| files | contents |
|---|---|
| `Base.v`, `BaseFacts.v`, `Loop.v` | outcomes, byte arrays, fuelled loops, weakest preconditions |
| `*Model.v` | the model, one Gallina function per C function, each with a `file:lines` citation |
| `Resources.v` | the binary player routines of `asap.c` (lengths and the bytes that matter) |
| `*Spec.v` | small independent specifications used in statements |
| `*Proofs.v`, `*Facts.v` and the rest | lemmas |
| `*Witness.v`, `NativeDiverge.v` | concrete files and states for refutations and examples |
| `Properties*.v` | only theorems `exact lemma.`, `Print Assumptions`, and the non-vacuity `Example`s |

| model | code |
|---|---|
| `InfoModel.v` | `ASAPInfo`: texts, dates, durations, setters, SAP header parser, file names |
| `NativeModel.v` | `ASAPInfo_Load` and the parsers of CMC/CM3/CMR/CMS/DMC, DLT, MPT/MPD, RMT, TMC, TM2, FC |
| `WriterModel.v`, `WriteModel.v` | `ASAPWriter`, `ASAPNativeModuleWriter` |
| `FlashPackModel.v` | `FlashPack`, `FlashPackItem` |
| `PokeyModel.v` | `Pokey`, `PokeyPair` |
| `MachineModel.v` | `Cpu6502`, the memory map and interrupts of `ASAP` |
| `PlayModel.v` | `ASAP`: loading, playing, seeking, silence, WAV headers |
| `AatrModel.v` | `aatr.fu` (from the Fusion source) |
| `StilModel.v` | `astil.c` |
| `ConvModel.v` | the output file names of `asapconv.c` |
| `OptionModel.v` | the command line of `asapconv.c` |
| `OutputModel.v` | the contents of the WAV and RAW files that `asapconv.c` writes |
| `RetagModel.v` | how `asapconv.c` changes the information about a module and writes it to a module file (`convert_to_module`, `apply_tags`), one output file at a time |

`python3 tools/coverage.py` lists the C functions that no definition cites. In `asap.c` these are
only constructors, destructors, reference counting, trivial field getters
and `Pokey_AccumulateTrailing` (unused).  In `astil.c`: getters, `ASTIL_New`/`Delete`.
In `asapconv.c`: `process_file`, `load_module`, the loop of `convert_to_module` over several XEX files (other formats have one, C65_one_file), the encoder libraries and the actual file writing. `strtol` of the
C library is modelled from the C standard for every `LONG_MAX` of at least 2^31-1.

## Plan per property

| id | modelled | how proved | statements, proofs |
|---|---|---|---|
| C01, C02 | DurationToString, SecondsToString, ParseDuration, DurationParser | grammar given separately; soundness and completeness of the parser | `InfoSpec`, `DurationProofs`, `InfoProofs` |
| C03 | WriteHexSapTag, WriteDec, ParseHex, ParseDec | induction on digits | same |
| C04-C07 | CheckValidText, dates, setters, SetNtsc | induction over the text, digit case analysis, frame conditions, div/mod arithmetic | same |
| C08 | GetPackedExt, PackExt, IsOurPackedExt, IsOurFile, IsOurExt | injectivity of packing | same, `NameProofs` |
| C09, C10 | ParseSap and helpers | loop invariant over the file position; UB excluded for every byte list | `SapSpec`, `SapProofs`, `SapLoadProofs` |
| C11, C12 | WriteSapHeader, WriteExecutableFromSap, ParseSap | symbolic execution of the parser over the writer's output, line by line | `SapWriteProofs`, `SapLoadProofs` |
| C13, C14, C41, C42 | every native parser | weakest preconditions with a measure per loop; witnesses where false | `Native*` |
| C15, C20 | WriteByte/WriteBytes and all their users, GetSaveExts, dispatch | window invariant of the output monad | `Window*`, `Save*` |
| C16, C17 | ASAPNativeModuleWriter | the file as address cells; what is written is a function of the offset; cells are disjoint and invariant | `Move*` |
| C18 | FormatXexInfoText, PadXexInfo, WriteXexInfo | invariant relating columns consumed to source characters | `Xex*` |
| C19 | FlashPack | item-level decoder; invariant of the greedy compressor; bit-stream encode/decode inverse | `Flash*` |
| C21 | GetWavHeader, PutWavMetadata | independent RIFF reader | `Wav*` |
| C22, C23 | GenerateAt, PokeyPair_Generate | induction on frames, independent of the emulation | `GenerateProofs`, `PlayProofs` |
| C24 | StoreSample | arithmetic | `StoreProofs` |
| C25 | polynomial tables, Peek(RANDOM) | finite sweep + periodicity | `Noise*` |
| C26, C27, C45, C46 | Pokey | invariant over arbitrary sequences of calls; measure; closed forms of periods | `Pokey*`, `Tune*` |
| C28-C32, C43 | Cpu6502 | finite sweeps lifted by lemmas, invariants per opcode | `Cpu*`, `Machine*`, `FrameProofs` |
| C33, C34, C44 | PlaySong, Seek, MutePokeyChannels, sessions of API calls | invariant preserved by every API call; witnesses | `Session*`, `Play*` |
| C35-C37, C47, C48 | AATR | induction over the sector chain / directory stack | `Aatr*` |
| C38, C39, C49, C50 | ASTIL | buffer invariants, the file as lines | `Stil*` |
| C52, C41 | ASAP_Load, ASAPInfo_ParseModule | induction over the blocks in both directions; inversion of the parsers | `Load*` |
| C53, C54 | ASAP_PlaySong, Generate, SeekSample, MutePokeyChannels, CPU, POKEY | relational (two-run) proof through the whole interpreter; relational proof per register write | `Sound*`, `MuteProofs` |
| C55, C56 | ASAP_Call6502, ASAP_Call6502Player, ASAP_HandleEvent, ASAP_Do6502Frame, PlaySong | symbolic execution of the stubs through the CPU model; clock invariant over every instruction, then induction over frames | `Call*`, `Rate*` |
| C57 | WriteNative/WriteExecutable and the generated 6502 code, ASAP_Load, PlaySong | the written file as header and blocks; its memory image; symbolic execution of the generated code with the player routine as an arbitrary returning subroutine | `Export*`, `StepProofs` |
| C58 | DetectSilence, GenerateAt, PlaySong, SeekSample | the sequence of quiet and other frames since the request, as a relation on machine states; an invariant over instructions for what the program cannot change | `Silence*` |
| C59 | the 6502 code written by FlashPack_Compress | the processor of CpuSpec.v with plain memory (no hardware registers); rules for the 26 instructions used, an invariant relating the code's variables to the decoder of FlashSpec.v; that the compressor's streams never touch what is still to be read follows from counting, in 1/64 of a byte, what the items after an address take (`light` in FlashCompress.v) | `Unpack*` |
| C60 | PeekHardware, PokeHardware, Cpu6502_Peek, Cpu6502_Poke, PokeyPair_Peek | the decoding of addresses by page and offset instead of by masks; times in scanlines; for NMIST a relation over writes of NMIRES and starts of frames. RANDOM is the shift register of NoiseSpec.v; writes to POKEY and sound levels go through Pokey_Poke and AddExternalDelta of the model. Read-modify-write instructions are not included | `Hardware*` |
| C61 | GetInstrumentNamesOffset, ParseRmt (title) | the first zero after the header of the second block; inversion of ParseRmt and ParseModule | `Names*` |
| C62 | GetExtDescription | a table of descriptions searched for the lower-case extension; the packed number equals that of a supported extension exactly if the lower-case texts are equal | `Describe*` |
| C63 | the command line of asapconv | a grammar of documented options with their meanings; numerals and masks defined positionally; reading what is written gives the meanings, by induction on the command line | `Option*` |
| C64 | the WAV files of asapconv | the loop over 8192-byte buffers delivers what one call delivers (C23), until the duration is over (C22), behind the header of C21 | `Output*` |
| C65 | SAP files that asapconv writes from SAP files | the setters are edits in the sense of C11, so what is written loads again as edited; the binary part is copied | `Retag*` |
| C40, C51 | open_output_file, process_file | buffer index invariant, template expansion | `Conv*` |

`properties.jsonl` has the exact text of each property, `MANIFEST.json` the theorem names and what they do not cover.

## Trusted base

* Coq 8.16.1 kernel (including `vm_compute`); `coqchk` re-checks all files.
* Axioms: none of our own.  `Print Assumptions` follows every property theorem, and for every theorem
  listed in `MANIFEST.json` it prints "Closed under the global context": no theorem uses an axiom.
  (`coqchk` reports the 7 parameters of `Coq.ssr.ssrunder.Under_rel`, which are in the context of the
  standard library's ssreflect plugin files loaded through `Lia`/`ssreflect`; no theorem depends on them.)
* The faithfulness of the transcription (each definition cites the lines it models) and the
  simplifications stated in the comments there.

Not modelled: the players/GUIs/plugins (`win32`, `java`, ... directories, `asap-sdl.c`), the tools `asapscan.c`,
`sap2txt.c`, memory allocation, floating-point construction of the sinc table, file-system behaviour.

## Mutation testing

`tools/mutate.py` takes a list of edits of model definitions, applies each in a scratch copy, rebuilds, and
replaces every proof that no longer goes through by an admitted one, so that one run lists all theorems that
depend on something that broke.  Results are in `seeded/LOG.jsonl`.  A caveat: a listed theorem depends
on a lemma whose script failed; the script can fail although the lemma is still true.  Where a
mutation survived, the entry says which theorem was tightened (or that no claim is about it).
