# Formal model of mpruett/audiofile — design

## Shape

* One executable Gallina model, split by source file, under `rocq/theories/`. Model files
  contain definitions only (each with the `/repo` file and lines it models, and the simplifications);
  proofs live in `*Proofs.v`; the property theorems are in `Properties*.v`, one per claim, with
  `Print Assumptions` after each and an `Example` that meets the hypotheses.
* Integers are `Z`; every C width is explicit (`u8 u16 u32 s16 s32 s64` reduce modulo 2^n), bytes are
  `Z` in 0..255, buffers are `list Z`, a file is a byte list plus a position.
* Undefined behaviour (out-of-bounds index, signed overflow, out-of-range float->int conversion, division
  by zero) and a failed `assert` are separate outcomes (`UB`, `Abort`) of the result type `res`, never a
  default value. Loops whose termination is not structural run on fuel and return `OutOfFuel`.

## Plan per property (how it is modelled and proved)

| id | model | proof |
|----|-------|-------|
| C01-C04 | `g711.c` functions on Z, shifts and masks as in C | case split on segment, arithmetic; 256-case sweeps for codes |
| C05 | `byteorder.h`, `FileHandle` integer I/O, both host orders | radix arithmetic |
| C06-C09 | `SimpleModule.h` conversions on lists of samples | arithmetic, list induction |
| C10-C11 | `ApplyChannelMatrix` over exact rationals (quarters) for the built-in matrices | list induction; overflow witness (refuted) |
| C12-C16 | `IMA.cpp` sample and block coders | invariants by induction over the code list; witnesses for the refuted ones |
| C17-C19 | `MSADPCM.cpp` | invariants; witness for decoder overflow |
| C20-C22 | `RebufferModule.cpp` as a state machine | refinement to the plain frame stream |
| C23-C27 | `data.cpp`, `format.cpp`, `PCM.cpp`, `G711.cpp`, `BlockCodec.cpp` | refinement to "array of frames + position" |
| C28-C37 | header writers/readers per format over the byte-file model | write-then-read round trip |
| C38 | chunk loops with their exact integer widths | measure, or a cycling witness (refuted) |
| C39-C40 | `CAF.cpp` BER integers, `PacketTable.cpp` | induction on the value / list |
| C41 | `extended.c` over dyadic numbers (all its operations are exact) | arithmetic |
| C42 | Pascal strings | list reasoning |
| C43-C48 | API state machines (misc, markers, loops, instruments, pv lists, ids) | get/set laws, invariants over call histories |
| C49, C62, C63 | `Setup.v`: the afInit... calls as a transition system, every `completeSetup`, `_afOpenFile` for writing; an independent table of what each file format holds | invariant over call histories, then case analysis per format |
| C50 | `recognize` | case analysis |
| C51 | frame/packet arithmetic | arithmetic |
| C52 | float conversions over exact dyadics with rounding from Flocq | exactness of power-of-two scaling |
| C53 | byte-file + crash points of the write protocol; then the header readers of each format applied to any crash image | invariant over prefixes of the write trace; every image agrees with the synced file up to the end of the synced audio, and the header lemmas of C28-C36 need no more than that; counterexamples for the formats that look beyond it |
| C54 | query dispatch with explicit table bounds; compared with the setups accepted by `Setup.v` | case analysis; witness for the unchecked one; execution of openWrite for each format |
| C55-C56 | composition of codec writers and readers over one byte file | refinement of both sides to the plain sample stream; induction over the history of writes and syncs |
| C57 | the read side of every header as a program over the byte file, with uninitialised fields, int overflow and unchecked reads as `UB` | a small logic of readers that neither fail undefined nor assert (Defined.v), invariants over the walk of the chunks, per format; witnesses |
| C58 | `ALAC.cpp` seek through the packet table | arithmetic on prefix sums |
| C59 | `ModuleState::arrange` as a function from two formats to a chain of converters | case analysis; the chain denotes the mathematical conversion |
| C60 | what the readers deliver (`mkParsed`), fed into the frame arithmetic and module constructors | Hoare-style "yields" rules over the reader monad |
| C61 | independent descriptions of the byte layouts other programs write, read with the model's readers | forward symbolic execution of the reader over a symbolic file |
| C64-C66 | `ALAC*.v`: bit buffer, adaptive Golomb coder, predictor, mixing, elements, packets, the encoder's parameter search, the packet loops of `modules/ALAC.cpp`; `ALACModule.v`: the module between rebuffering and file, the configuration chunk, the packet table, seeking (whole CAF ALAC files, C37) | fields written = fields read (bit-level specification), predictor inverted by induction, size of the code by amortised bounds; measure for termination |
| C67, C68 | `Memory.v`: the converters on byte buffers of the size `ModuleState::setup` allocates (out of bounds = `UB`), the chunk formats (`describe`), the pull and push of a piece, afReadFrames' loop over pieces; `FloatValid.v`: arithmetic results are floating-point numbers | one layout relation (`Step`: type, byte order, bytes per sample) preserved by every converter, induction over the chain of `arrange`; frames decoded from bytes by `framesIn`, a specification independent of the converters |
| C69 | `Rates.v`: llrint and the scaling of positions by rates in double arithmetic; `Virtual.v`: the setters, the dirty flag, the lazy `setup` (chain, positions, reset) on top of `Reader.v` | equal rates keep positions exactly (error bounds of multiplication and division, rounding); invariant: after `setup` the reader's invariant holds at the caller's position and the chain is the settings' |
| C70 | `VirtualWrite.v`: the setters and the lazy `setup` on top of `Writer.v` (rebuffer kept, buffers new) | invariant: frames whose blocks are encoded, frames pending in the rebuffer, and the writer's invariant since the chain was last built; whole rates scale exactly (`Rates.v`) |
| C71 | `Memory.v` (converters on buffers) joined to `Writer.v`, `Reader.v` and the header models | the default chain is swap, 24-bit packing and, for unsigned samples, two sign changes: identity on samples (C68), hence on bytes because integer samples determine their bytes; floating-point chains byte by byte; then C28-C37 instantiated with that conversion |
| C72 | `Raw.v` (Raw.cpp, the frame size in single precision) | the float quotient by 1 or 2 is exact below 2^24; then a frame of the file is the bytes at its place (chunks of a list), and C28's file theorem with an empty header for files written |
| C73 | `SfConvert.v` (the copy loop of sfconvert.c) on `Virtual.v` and `VirtualWrite.v` | the reads of the loop are a history of C69 and its writes one of C70, cut into portions of 65536; equal formats: C71's converters keep every sample; truncated input: the file position after a full read is inside the file; reopening: the conversion is one Write and a Sync of the input's frames, so each format's round trip (C28-C37) applies |
| C74 | `Disk.v`: `Writer.v` with the answers of write(2) as a list; PCM, G.711 and block codecs, rebuffering, afWriteFrames, afSyncFile, afCloseFile | invariant until the first failure: the writer's invariant; after it: the data is what was accepted before, then an unspecified tail; separate weak invariant (position, size, valid buffers) for arbitrary further calls |
| C75 | `Faults.v`: `Reader.v` with the answers of read(2) as a list | each pull either does what `Reader.v`'s does or reports an error; simulation through the rebuffering module; after an error a weak invariant that a seek to another position turns back into the reader's |
| C76 | `Reader.v`, `Faults.v` on a prefix of the file | `Truncated.v`: simulation by the complete file with short answers, then C75; `Promised.v`: the run with the header's frame count is the run with the frames present as long as calls stay within them, then C23 |
| C77 | the header writers and updaters of every format (`NeXT.v` ... `WAVE.v`) on `Writer.v` histories | a separate description of each layout (lists of fields in big- or little-endian order); C24's file contents with the final header, which the format files' update lemmas give |
| C78 | `API.v`: the checks of every function on an open file in front of `Virtual.v` and `VirtualWrite.v`, and the functions that report settings | induction over histories; a refused call is the identity; the reported fields are a fold over the accepted setters |
| C79 | `FrameSize.v`: afGetFrameSize, afGetVirtualFrameSize as floats, on the handles of `API.v` | the virtual format stays uncompressed (invariant over histories); exact float division; C68's memory layout with the reported size |
| C80 | `AES.v`: aes.cpp on the tracks of a setup and of a file | histories by induction, stated through afGetAESChannelData; AIFF: C36's round trip with the AESD chunk of the closing file |

## Trusted base

* Coq 8.16.1's kernel (and `coqchk`). All property theorems print `Closed under the global context`
  under `Print Assumptions`: no axiom, neither of our own nor of the standard library, is used.
  (`coqchk` lists seven opaque constants of `Coq.ssr.ssrunder`; they are the standard library's own and no theorem uses them.)
* The reading of C/C++ by hand: each model definition cites the lines it models. Nothing is extracted from or
  executed against the C++ code.
* Conventions of the model:
  * LP64 data model, two's complement, 8-bit bytes; the host byte order is a parameter (`host : order`) and theorems hold for both.
  * `Class Build := asserting : bool` says whether `assert` is compiled in. Theorems quantify over it. With assertions off,
    a failed assertion is skipped and what follows is executed.
  * C binary32/binary64 arithmetic is `Coq.Floats.SpecFloat` with round to nearest even, no fused multiply-add, no extended
    precision. There is one NaN in `FloatBits` (payloads are not tracked; float samples that are only copied are byte lists, so
    their payloads are kept).
  * Signed overflow, shifts out of range, out-of-bounds accesses, use of an uninitialised field, out-of-range float to integer
    conversions and division by zero are `UB`. The ALAC model takes signed overflow from `Class Arith` (wrapping or `UB`). `arrange` has a parameter `wrapv` (whether signed negation wraps).
  * Memory allocation succeeds, except that a negative or absurd request made from a file's field is `Abort` (uncaught `bad_alloc`) or a failure as
    in the code. `memcpy` of zero bytes from NULL is harmless. `lseek` refuses negative offsets and nothing else. Reads and writes
    of a regular file are complete (a short read happens only at the end of the file); a disk that is full is not modelled, except where a theorem says so.
  * `scanf("%d")` overflow is UB; `strstr`, `sscanf`, `printf("%d")` are modelled in `NIST.v` for the formats the code uses.
  * `flac : bool` in `Query.v` says whether FLAC support is compiled in. The FLAC codec itself is libFLAC, outside the repository.

## What is modelled

| source | model |
|--------|-------|
| g711.c, modules/G711.cpp | `G711.v`, `Codecs.v`, `Reader.v`, `Writer.v` |
| byteorder.h, FileHandle.cpp (integer I/O), File.cpp | `ByteOrder.v`, `FileIO.v`, `HeaderIO.v` |
| modules/SimpleModule.{h,cpp}, pcm.cpp | `Convert.v`, `FloatConv.v`, `Float.v`, `Arrange.v` |
| modules/IMA.cpp, MSADPCM.cpp, BlockCodec.cpp | `IMA.v`, `MSADPCM.v`, `Codecs.v` |
| modules/RebufferModule.cpp | `Rebuffer.v` |
| modules/ModuleState.cpp, FileModule.cpp, PCM.cpp, data.cpp, format.cpp (positions, frame size) | `Reader.v`, `Writer.v`, `Disk.v` (failing writes), `Faults.v` (failing reads), `Arrange.v`, `Memory.v`, `Rates.v`, `API.v` (argument checks), `FrameSize.v`, `Virtual.v`, `VirtualWrite.v` (format changes between calls) |
| openclose.cpp (identify, sync, close) | `Identify.v`, `Writer.v` |
| Raw, NeXT, AVR, IFF, IRCAM, VOC, SampleVision, NIST, WAVE, AIFF, CAF .cpp | one file each: recognise, read header, write header, update |
| extended.c, PacketTable.cpp, CAF BER integers | `Extended.v`, `PacketTable.v`, `FloatBits.v` |
| Setup.cpp, AIFF/WAVE/… completeSetup, Track.cpp | `Setup.v` |
| Marker, Loop, Instrument, Miscellaneous, Track (ids), aupv.c, util.cpp (ids), aes.cpp | `Metadata.v`, `AES.v` |
| alac/*.c, alac/ALACEncoder.cpp, ALACDecoder.cpp, modules/ALAC.cpp | `ALACModule.v`, `ALACBits.v`, `ALACGolomb.v`, `ALACPredict.v`, `ALACCodec.v`, `ALACSearch.v`, `ALACStream.v` (fast mode, which the library never selects, is not modelled) |
| query.cpp, units.cpp, compression.cpp | `Query.v` |
| sfcommands/sfconvert.c (copying) | `SfConvert.v` |

Not modelled: FLAC (`FLACFile.cpp`, `modules/FLAC.cpp`: wrappers of an external library); `debug.cpp`,
`UUID.cpp` (only the two sub-format GUIDs, as byte lists, in `WAVE.v`), `Buffer.cpp`; concurrency (the library
is single-threaded and documents no thread safety); the command line tools (`sfcommands/`), except the copying part of sfconvert (sfconvert.c:210-264, 322-366).
A user's virtual I/O (`af_vfs.cpp`) is modelled as the byte file.
