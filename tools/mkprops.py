#!/usr/bin/env python3
"""Regenerates properties.jsonl from the table below (plain data, one tuple per property)."""
import json, os
P = []
def p(title, statement, quantifier, why, anchors):
    P.append(dict(id="C%02d" % (len(P)+1), title=title, statement=statement,
                  quantifier=quantifier, why_tests_cant=why, anchors=anchors))

p("mu-law codes survive a decode/encode round trip",
  "Decoding any mu-law code byte to linear and encoding the result gives back the same byte, except that the negative-zero code 0x7F comes back as the positive-zero code 0xFF, which decodes to the same sample.",
  "every mu-law byte; every sample sequence in a mu-law file",
  "Holds for whole files of any length and any mixture of codes; a test reads a few sample files.",
  ["libaudiofile/g711.c:_af_linear2ulaw", "libaudiofile/g711.c:_af_ulaw2linear"])
p("mu-law quantisation is monotone and its error is bounded",
  "For every 16-bit sample the decoded code is a 16-bit value, encoding is monotone (a larger sample never decodes to a smaller value), encode-decode is idempotent, and the error is at most half the step of the sample's segment up to magnitude 32635, above which the result saturates at 32124.",
  "every pair of 16-bit linear samples",
  "Monotonicity ranges over pairs of samples and the error bound over all segments.",
  ["libaudiofile/g711.c:_af_linear2ulaw", "libaudiofile/g711.c:_af_ulaw2linear", "libaudiofile/modules/G711.cpp"])
p("A-law codes survive a decode/encode round trip",
  "Decoding any A-law code byte and encoding the result gives back the same byte.",
  "every A-law byte; every sample sequence in an A-law file",
  "Holds for whole files of any length and any mixture of codes.",
  ["libaudiofile/g711.c:_af_linear2alaw", "libaudiofile/g711.c:_af_alaw2linear"])
p("A-law quantisation is monotone and its error is bounded",
  "For every 16-bit sample the decoded code is a 16-bit value, encoding is monotone, encode-decode is idempotent, and the error is bounded by the step of the sample's segment.",
  "every pair of 16-bit linear samples",
  "Ranges over all pairs of samples; the special handling of small negative samples is easy to miss in a test.",
  ["libaudiofile/g711.c:_af_linear2alaw", "libaudiofile/g711.c:_af_alaw2linear"])
p("Byte order never changes a value",
  "Byte swapping 16-, 32- and 64-bit quantities is an involution, and a header field or sample written in either byte order and read in the same order is unchanged, on a host of either endianness.",
  "every value of each width, both file byte orders, both host byte orders",
  "A test runs on one host endianness and on a handful of values.",
  ["libaudiofile/byteorder.h:byteswap", "libaudiofile/FileHandle.cpp:readU16,readU32,readU64,writeU16,writeU32,writeU64", "libaudiofile/modules/SimpleModule.h:SwapModule"])
p("Signed/unsigned sample conversion is an order-preserving bijection",
  "Converting signed samples to unsigned and back (or the reverse) at 8, 16, 24 and 32 bits returns the same samples, keeps them in the range of the width and preserves order.",
  "every sample of every integer width",
  "Must hold for every sample value and for every buffer length.",
  ["libaudiofile/modules/SimpleModule.h:ConvertSign"])
p("24-bit packing is lossless",
  "Unpacking a packed 24-bit sample to its in-memory form and packing it again gives the same three bytes; packing an in-range 24-bit sample and unpacking it gives the same sample, for signed and unsigned data.",
  "every 24-bit sample in buffers of any length",
  "Needs every sample value and sign.",
  ["libaudiofile/modules/SimpleModule.cpp:Expand3To4", "libaudiofile/modules/SimpleModule.h:Compress4To3,Expand3To4Module"])
p("Widening integer samples is lossless and narrowing is truncation",
  "Converting signed integer samples to a wider integer virtual format and back returns the same samples, widening preserves order and full-scale sign, narrowing keeps the top bits and stays in range; conversions compose.",
  "every pair of integer widths and every sample",
  "All 16 width pairs times all sample values.",
  ["libaudiofile/modules/SimpleModule.h:ConvertInt"])
p("Clipping confines samples to the mapped range and fixes values already inside it",
  "The clip step always produces a sample between the minimum and maximum of the format's PCM mapping, leaves samples already within that range unchanged, is idempotent and monotone.",
  "every sample and every pair of clip limits",
  "Any sample and any afSetVirtualPCMMapping limits.",
  ["libaudiofile/modules/SimpleModule.h:Clip", "libaudiofile/modules/SimpleModule.h:ConvertFloatToIntClip"])
p("Channel mixing applies exactly the configured matrix",
  "Each output frame is the product of the channel matrix with the corresponding input frame, frames are never mixed with each other, the identity matrix copies frames unchanged and the built-in mono-to-stereo and stereo-to-quad matrices copy channels exactly.",
  "every frame count, every channel count, every matrix",
  "All sizes of buffers and all channel-count pairs.",
  ["libaudiofile/modules/SimpleModule.cpp:ApplyChannelMatrix"])
p("Channel mixing of integers never overflows",
  "Mixing in-range integer channels with the built-in matrices yields a sample in the range of the integer type.",
  "every frame of in-range integer samples",
  "Overflow needs specific loud frames on all channels.",
  ["libaudiofile/modules/SimpleModule.cpp:ApplyChannelMatrix::run"])
p("IMA ADPCM predictor state never leaves its legal range",
  "Whatever codes are decoded or samples encoded, starting from a legal state the step index stays in 0..88 and the predicted value stays a 16-bit sample.",
  "every legal start state and every sequence of codes or samples",
  "An invariant over code sequences of unbounded length.",
  ["libaudiofile/modules/IMA.cpp:decodeSample,encodeSample"])
p("IMA ADPCM encoder and decoder stay in lock step",
  "Decoding an encoded block reproduces exactly the sequence of values the encoder itself reconstructed, and leaves the decoder in the encoder's final state, so no drift accumulates.",
  "every legal state, every sample block, any channel count",
  "Drift would only show up after unboundedly many samples.",
  ["libaudiofile/modules/IMA.cpp:encodeBlockWAVE,decodeBlockWAVE,encodeBlockQT,decodeBlockQT"])
p("IMA ADPCM encoded blocks have exactly the declared size",
  "Encoding a block of N frames produces exactly the number of bytes the file header declares per packet and decoding such a block yields exactly N frames.",
  "every channel count and block",
  "All channel counts and packet sizes.",
  ["libaudiofile/modules/IMA.cpp", "libaudiofile/WAVE.cpp:initIMACompressionParams"])
p("Decoding IMA ADPCM data from an untrusted file is memory safe",
  "Decoding any bytes as IMA ADPCM never indexes outside the step table.",
  "every byte content of a block",
  "Requires adversarial block headers.",
  ["libaudiofile/modules/IMA.cpp:decodeBlockWAVE,decodeBlockQT"])
p("WAVE IMA ADPCM keeps every frame at its position",
  "After writing frames to a WAVE IMA file and reading it back, frame i approximates the frame i that was written.",
  "every sequence of frames",
  "Needs a relation between all positions of arbitrarily long streams.",
  ["libaudiofile/modules/IMA.cpp:encodeBlockWAVE,decodeBlockWAVE"])
p("MS ADPCM stores the first two frames of each block exactly and stays in lock step",
  "Decoding an encoded MS ADPCM block reproduces the first two frames exactly and all later frames as the encoder reconstructed them, in 16-bit range, for mono and stereo.",
  "every block of 16-bit frames",
  "All sample blocks.",
  ["libaudiofile/modules/MSADPCM.cpp:encodeBlock,decodeBlock"])
p("MS ADPCM encoding never overflows and keeps the step at least 16",
  "Encoding any 16-bit samples keeps the adaptive step at least 16 and within 16 bits so that the block header can represent it, and performs no overflowing arithmetic.",
  "every sequence of 16-bit samples",
  "An invariant over unboundedly many samples.",
  ["libaudiofile/modules/MSADPCM.cpp:encodeSample,choosePredictorForBlock"])
p("Decoding MS ADPCM data from an untrusted file has defined behaviour",
  "Decoding any bytes as MS ADPCM performs no undefined arithmetic.",
  "every byte content of a block",
  "Requires adversarial blocks.",
  ["libaudiofile/modules/MSADPCM.cpp:decodeSample,decodeBlock"])
p("Rebuffering on reading preserves the frame stream",
  "When a codec delivers fixed-size blocks and the application reads arbitrary numbers of frames, the concatenation of what the application gets is exactly the concatenation of the decoded blocks: no frame is lost, duplicated or reordered.",
  "every block size, every sequence of request sizes",
  "Ranges over all histories of read sizes.",
  ["libaudiofile/modules/RebufferModule.cpp:runPull"])
p("Rebuffering on writing preserves the frame stream",
  "When the application writes arbitrary numbers of frames and the codec takes fixed-size blocks, the codec receives exactly the written frames in order in full blocks, and a final sync delivers the remainder.",
  "every block size, every sequence of write sizes",
  "Ranges over all histories of write sizes.",
  ["libaudiofile/modules/RebufferModule.cpp:runPush,sync1,sync2"])
p("Syncing a file being written is transparent",
  "Calling afSyncFile at any points between writes does not change the final contents of the audio data.",
  "every interleaving of writes and syncs",
  "All interleavings of two operations.",
  ["libaudiofile/openclose.cpp:afSyncFile", "libaudiofile/modules/RebufferModule.cpp:sync1,sync2", "libaudiofile/modules/PCM.cpp:sync1,sync2", "libaudiofile/modules/BlockCodec.cpp:sync1,sync2"])
p("Splitting reads does not change the data",
  "Reading n+m frames in one call returns the same frames and leaves the same position as reading n and then m frames; by iteration any way of splitting a read gives the same data, and each call returns exactly min(requested, remaining) frames.",
  "every file, position and sequence of read sizes",
  "All splits of all reads; internal chunking boundary cases.",
  ["libaudiofile/data.cpp:afReadFrames", "libaudiofile/modules/PCM.cpp:runPull"])
p("Splitting writes does not change the file",
  "Writing frames in one call or in any number of smaller calls produces the same file bytes and frame count.",
  "every sequence of frames and every split into calls",
  "All splits of all writes.",
  ["libaudiofile/data.cpp:afWriteFrames", "libaudiofile/modules/PCM.cpp:runPush"])
p("Seeking positions exactly and never leaves the file",
  "afSeekFrame to frame k in 0..count makes k the current frame and returns k; a later read returns frames k, k+1, ...; a negative argument only reports the position; the position always stays within 0..count.",
  "every file, history of reads and seeks",
  "All histories of seeks and reads.",
  ["libaudiofile/format.cpp:afSeekFrame,afTellFrame", "libaudiofile/data.cpp:afReadFrames"])
p("afTellFrame equals the number of frames transferred since the last seek",
  "After any history of reads and seeks the reported position is the last seek target plus the frames read since.",
  "every history",
  "All histories.",
  ["libaudiofile/format.cpp:afTellFrame", "libaudiofile/data.cpp"])
p("Large files survive a sync",
  "afSyncFile on a file being written restores the write position for data of any size.",
  "every file size",
  "Needs files above 2 GiB.",
  ["libaudiofile/modules/PCM.cpp:sync1,sync2"])
p("NeXT/Sun .au write-then-read round trip",
  "A .au file written with any supported format and any frames and closed re-opens with the same sample format, channel count, rate and frame count, and reading returns the frames.",
  "every supported format, every frame sequence, every split of writes and reads",
  "All parameter combinations and data.",
  ["libaudiofile/NeXT.cpp"])
p("AVR write-then-read round trip",
  "An AVR file written and closed re-opens with the same format, rate and frame count and the same frames.",
  "every supported format and frame sequence",
  "All parameter combinations and data.",
  ["libaudiofile/AVR.cpp"])
p("IFF/8SVX write-then-read round trip",
  "An IFF/8SVX file written and closed re-opens with the same rate, frame count, miscellaneous chunks and frames, its chunks are padded to even size, and its FORM length is the file length minus 8.",
  "every frame sequence (odd and even lengths) and chunk list",
  "All lengths and chunk lists.",
  ["libaudiofile/IFF.cpp"])
p("BICSF (IRCAM) write-then-read round trip",
  "A BICSF file written and closed re-opens with the same format, channel count, frame count and frames.",
  "every supported format and frame sequence",
  "All parameter combinations and data.",
  ["libaudiofile/IRCAM.cpp"])
p("VOC write-then-read round trip",
  "A VOC file written and closed re-opens with the same format, rate, channels, frame count and frames.",
  "every supported format and frame sequence",
  "All sizes, including those beyond the 24-bit block length field.",
  ["libaudiofile/VOC.cpp"])
p("Sample Vision write-then-read round trip",
  "A Sample Vision file written and closed re-opens with the same rate, frame count and frames.",
  "every frame sequence",
  "All data.",
  ["libaudiofile/SampleVision.cpp"])
p("NIST SPHERE write-then-read round trip",
  "A NIST SPHERE file written and closed re-opens with the same format, rate, channels, frame count and frames.",
  "every supported format and frame sequence",
  "All numeric field values in the textual header.",
  ["libaudiofile/NIST.cpp"])
p("WAVE write-then-read round trip",
  "A WAVE file written and closed re-opens with the same format, rate, channels, frame count, markers, miscellaneous data and frames.",
  "every supported format, frame sequence, marker list and miscellaneous list",
  "All parameter combinations and data.",
  ["libaudiofile/WAVE.cpp"])
p("AIFF/AIFF-C write-then-read round trip",
  "An AIFF or AIFF-C file written and closed re-opens with the same format, rate, channels, frame count, markers, miscellaneous data, instrument parameters and frames.",
  "every supported format, frame sequence, marker list and miscellaneous list",
  "All parameter combinations and data.",
  ["libaudiofile/AIFF.cpp"])
p("CAF write-then-read round trip",
  "A CAF file written and closed re-opens with the same format, rate, channels, frame count and frames.",
  "every supported format and frame sequence",
  "All parameter combinations and data.",
  ["libaudiofile/CAF.cpp"])
p("Opening any file terminates",
  "Opening any byte sequence as WAVE, AIFF, IFF, CAF, VOC or NeXT returns (successfully or with an error) after finitely many steps.",
  "every byte sequence",
  "Non-termination needs adversarial chunk sizes.",
  ["libaudiofile/WAVE.cpp:readInit", "libaudiofile/AIFF.cpp:readInit", "libaudiofile/IFF.cpp:readInit", "libaudiofile/CAF.cpp:readInit", "libaudiofile/VOC.cpp:readInit"])
p("Variable-length packet sizes round trip through the packet table",
  "Any list of packet sizes written to a CAF packet table is read back unchanged and consumes exactly the bytes written.",
  "every list of packet sizes below 2^31",
  "All sizes and list lengths.",
  ["libaudiofile/CAF.cpp:encodeBERInteger,readBERInteger,writePacketTable,parsePacketTable", "libaudiofile/PacketTable.cpp"])
p("Packet offsets are the prefix sums of packet sizes",
  "The start of packet i is the sum of the sizes of packets 0..i-1, so consecutive packets tile the data without gaps or overlap.",
  "every packet table",
  "All histories of appends.",
  ["libaudiofile/PacketTable.cpp"])
p("80-bit sample rates round trip",
  "Every sample rate representable as a finite double of normal exponent range written as an 80-bit extended value is read back exactly.",
  "every finite nonnegative double",
  "All doubles.",
  ["libaudiofile/extended.c"])
p("Pascal strings round trip and keep even alignment",
  "A marker name or string of up to 255 bytes written as a Pascal string is read back unchanged and occupies an even number of bytes.",
  "every byte string",
  "All lengths, both parities.",
  ["libaudiofile/AIFF.cpp:writePString,readPString"])
p("Miscellaneous chunk data behaves like a bounded file",
  "afWriteMisc, afReadMisc and afSeekMisc on a chunk never access outside the chunk's declared size, transfer min(requested, remaining) bytes, and reading back after seeking to the start returns exactly what was written.",
  "every history of read, write and seek calls",
  "All histories and offsets.",
  ["libaudiofile/Miscellaneous.cpp"])
p("Marker queries return what was set",
  "Setting a marker position is returned by the next query of that marker, does not affect other markers, negative positions become 0, and is refused for unknown ids and files open for reading; marker id listing returns exactly the distinct ids configured.",
  "every marker list and history of calls",
  "All id lists and histories.",
  ["libaudiofile/Marker.cpp", "libaudiofile/Track.cpp:getMarker"])
p("Loop queries return what was set",
  "Loop mode, count, start and end marker and track set on a loop are returned by the next query and no other loop or field changes; invalid modes, counts or ids are refused without effect.",
  "every instrument/loop table and history of calls",
  "All histories.",
  ["libaudiofile/Loop.cpp", "libaudiofile/Instrument.cpp:getLoop"])
p("Instrument parameter queries return what was set",
  "An instrument parameter set to a valid value is returned by the next query and no other parameter or instrument changes; unknown parameters and invalid values are ignored.",
  "every instrument table and history",
  "All histories.",
  ["libaudiofile/Instrument.cpp", "libaudiofile/AIFF.cpp:isInstrumentParameterValid", "libaudiofile/WAVE.cpp:isInstrumentParameterValid"])
p("Parameter-value lists behave like arrays",
  "After AUpvnew(n) an item's parameter, type and value read back as last set, other items are unaffected and out-of-range items are rejected.",
  "every list size and history of calls",
  "All histories.",
  ["libaudiofile/aupv.c"])
p("Duplicate ids are always rejected",
  "afInitMarkIDs, afInitLoopIDs, afInitInstIDs, afInitMiscIDs and afInitTrackIDs accept an id list exactly when its entries are pairwise distinct (and positive where required).",
  "every id list",
  "All lists of any length.",
  ["libaudiofile/util.cpp:_af_unique_ids"])
p("An accepted setup is always writable in its format",
  "If a file format accepts a file setup then the resulting track format is one the format's header writer can represent.",
  "every setup and file format",
  "The cross product of all setup fields.",
  ["libaudiofile/*.cpp:completeSetup"])
p("Files are identified as the format they were written in",
  "A file written in format F and closed is identified by afOpenFile as format F.",
  "every written file",
  "All contents of all files.",
  ["libaudiofile/openclose.cpp:_af_identify", "libaudiofile/units.cpp", "*:recognize"])
p("Frame counts and sizes are consistent",
  "The number of frames reported for a file is the data size divided by the packet size times the frames per packet, and the reported frame size is the sample size times the channel count.",
  "every format and size",
  "All formats and sizes.",
  ["libaudiofile/Track.cpp:computeTotalFileFrames", "libaudiofile/AudioFormat.cpp", "libaudiofile/util.cpp"])
p("Integer samples survive a trip through floating-point virtual format",
  "Reading 8-, 16- or 24-bit integer samples in the float or double virtual format (32-bit in double) and converting back yields the same samples; float values outside full scale are clipped to the integer range.",
  "every sample",
  "Every sample value and both float widths.",
  ["libaudiofile/modules/SimpleModule.h:ConvertIntToFloat,ConvertFloatToIntClip,Transform", "libaudiofile/modules/ModuleState.cpp:arrange"])
p("A synced file is readable after a crash",
  "If the process dies after afSyncFile, at any later point during further writes, the file on disk re-opens with exactly the frames that had been written at the sync.",
  "every crash point after every sync, every data",
  "Crash points.",
  ["libaudiofile/openclose.cpp:afSyncFile", "libaudiofile/NeXT.cpp:update,readInit", "libaudiofile/AIFF.cpp:update,readInit", "libaudiofile/WAVE.cpp:update,readInit", "libaudiofile/IFF.cpp:update,readInit", "libaudiofile/CAF.cpp:readInit", "libaudiofile/VOC.cpp:readInit", "libaudiofile/IRCAM.cpp:readInit", "libaudiofile/SampleVision.cpp:readInit"])
p("Queries never access outside the format table",
  "afQuery with any arguments returns a value or an error and never indexes outside the library's tables.",
  "every argument tuple",
  "All integer arguments.",
  ["libaudiofile/query.cpp"])
p("What was written is what is read",
  "Frames written with afWriteFrames in any number of calls, with afSyncFile at any points between writes, and read back after closing, are the frames written: exactly for integer PCM, quantised sample by sample for G.711, and as the encoder's own reconstruction for ADPCM; the frame count is the number of frames written.",
  "every sequence of frames, every split into writes and syncs, every history of reads and seeks, every sample width, byte order and channel count",
  "All data and all call histories on both sides.",
  ["libaudiofile/data.cpp:afWriteFrames,afReadFrames", "libaudiofile/modules/PCM.cpp", "libaudiofile/modules/G711.cpp", "libaudiofile/modules/BlockCodec.cpp", "libaudiofile/modules/IMA.cpp", "libaudiofile/modules/MSADPCM.cpp"])
p("A file depends only on what was written",
  "Two programs that write the same frames with the same setup produce the same file, whatever the memory of the process contained.",
  "every sequence of frames and every memory content",
  "Memory contents.",
  ["libaudiofile/modules/BlockCodec.cpp:runPush", "libaudiofile/modules/RebufferModule.cpp", "libaudiofile/modules/ModuleState.cpp:arrange"])
p("Opening any file is defined behaviour",
  "afOpenFile on a file with arbitrary contents either succeeds or reports an error: it never uses an uninitialised value, overflows a signed integer, divides by zero, accesses memory out of bounds or fails an assertion.",
  "every byte sequence",
  "All byte sequences.",
  ["libaudiofile/*:readInit", "libaudiofile/FileHandle.cpp:readU32", "libaudiofile/AudioFormat.cpp:computeBytesPerPacketPCM"])
p("Seeking in a variable-size packet file stays inside its packet table",
  "Seeking to any frame of an ALAC file positions the file at the start of the packet holding that frame and never reads outside the packet table or divides by zero.",
  "every packet table, frame count and frame number",
  "All tables, including inconsistent ones.",
  ["libaudiofile/modules/ALAC.cpp:reset1,reset2", "libaudiofile/PacketTable.cpp:startOfPacket", "libaudiofile/CAF.cpp:parsePacketTable,parseDescription"])
p("The converter chain delivers the requested format",
  "For every pair of file and virtual sample formats, widths, PCM mappings, byte orders and channel counts a chain of converters is built in which every step receives samples of the type it handles, and the frames that come out have the sample type and the number of channels asked for.",
  "every pair of formats, every frame",
  "The pairs of formats, mappings and channel counts are unbounded in number.",
  ["libaudiofile/modules/ModuleState.cpp:arrange", "libaudiofile/modules/SimpleModule.h", "libaudiofile/util.cpp:_af_set_sample_format"])
p("A file that opens has a usable format",
  "Whenever afOpenFile succeeds on a file, whatever its contents, the track has at least one channel, a sample width that suits its sample format, packets that hold at least one frame and one byte (PCM: exactly one frame of channels times sample size), and the audio data does not start before the file does.",
  "every byte sequence, every file format",
  "Files are arbitrary byte sequences; the check must cover all header contents.",
  ["libaudiofile/WAVE.cpp:parseFormat", "libaudiofile/AIFF.cpp:parseCOMM", "libaudiofile/CAF.cpp:parseDescription", "libaudiofile/NIST.cpp:readInit", "libaudiofile/NeXT.cpp:readInit", "libaudiofile/VOC.cpp:readInit", "libaudiofile/IRCAM.cpp:readInit", "libaudiofile/AVR.cpp:readInit", "libaudiofile/IFF.cpp", "libaudiofile/SampleVision.cpp"])
p("Files of other programs are read as their format says",
  "Header variants the library reads but does not write itself (VOC old-style and extended sound blocks, IRCAM files of the other machine types, NeXT files of unknown length, AIFF-C sample types twos, sowt, in24, in32, FL32, FL64, ULAW, ALAW, WAVE extensible headers) give the format, data position and frame count they describe.",
  "every rate, channel count and amount of data, every variant",
  "Field values and file sizes are unbounded in number.",
  ["libaudiofile/VOC.cpp:readInit", "libaudiofile/IRCAM.cpp:readInit", "libaudiofile/NeXT.cpp:readInit", "libaudiofile/AIFF.cpp:parseCOMM", "libaudiofile/WAVE.cpp:parseFormat"])
p("An accepted setup is honoured",
  "When afOpenFile accepts a setup for writing, the file has the channel count, sample rate, compression and sample width the setup asks for, the sample format up to a signedness the file format lacks, and the byte order where it matters; the frames the program passes are in the setup's sample format at full scale, and when the file keeps that sample format they are stored unchanged.",
  "every sequence of setup calls, every file format, every frame",
  "Setups are histories of calls; frames are arbitrary.",
  ["libaudiofile/openclose.cpp:_afOpenFile", "libaudiofile/Setup.cpp", "libaudiofile/*:completeSetup", "libaudiofile/modules/ModuleState.cpp:arrange"])
p("A setup can be used again",
  "Opening a file for writing does not spoil the setup: a second file opened with the same setup, of the same or another file format, gets the format a fresh setup with the same calls would give.",
  "every sequence of setup calls, every pair of file formats",
  "Histories of calls and opens.",
  ["libaudiofile/openclose.cpp:_afOpenFile", "libaudiofile/*:completeSetup", "libaudiofile/Setup.cpp:_af_filesetup_copy"])
p("ALAC files are lossless",
  "Whatever frames a program writes to an ALAC file, in however many packets, reading the packets with the packet table gives the same frames, from the beginning or after seeking to any frame; a depth of 20 bits keeps the upper 20 of 24.",
  "every depth, 1 to 8 channels, every sequence of packets of every length, every frame to seek to",
  "Sample sequences are unbounded and the coder adapts to all that came before.",
  ["libaudiofile/alac/ALACEncoder.cpp:Encode", "libaudiofile/alac/ALACDecoder.cpp:Decode", "libaudiofile/alac/ag_enc.c", "libaudiofile/alac/ag_dec.c", "libaudiofile/alac/dp_enc.c", "libaudiofile/alac/dp_dec.c", "libaudiofile/alac/matrix_enc.c", "libaudiofile/alac/matrix_dec.c", "libaudiofile/modules/ALAC.cpp:runPush,runPull"])
p("Decoding an ALAC packet is memory safe and ends",
  "Whatever bytes a packet holds, decoding it ends, reads only the packet's buffer and writes only the output buffer and the decoder's own arrays.",
  "every byte sequence, every magic cookie",
  "Packets are arbitrary byte sequences.",
  ["libaudiofile/alac/ALACDecoder.cpp:Decode", "libaudiofile/alac/ag_dec.c:dyn_decomp", "libaudiofile/alac/dp_dec.c:unpc_block", "libaudiofile/modules/ALAC.cpp:runPull"])
p("The ALAC encoder stays inside its buffer",
  "Encoding any frames never writes outside the buffer the library allocates for a packet, never fails and yields packets no longer than the buffer size the reader allocates.",
  "every depth, 1 to 8 channels, every sequence of packets",
  "The longest code depends on all samples of all packets so far.",
  ["libaudiofile/alac/ALACEncoder.cpp:Encode", "libaudiofile/modules/ALAC.cpp:bufferSize,runPush", "libaudiofile/modules/ModuleState.cpp:setup"])
p("Conversions stay inside their buffers",
  "Reading or writing frames through any combination of file and virtual formats, mappings and channel matrices never reads or writes outside the caller's buffer or the library's own; a read of n frames stores exactly n virtual frames in the caller's buffer and leaves the bytes after them alone.",
  "every pair of formats, every matrix and mapping, every codec packet size, every number of frames, every file contents",
  "Formats combine freely and the sizes depend on all of them; an overrun need not crash a test.",
  ["libaudiofile/modules/ModuleState.cpp:setup,arrange", "libaudiofile/modules/SimpleModule.h", "libaudiofile/modules/SimpleModule.cpp:ApplyChannelMatrix", "libaudiofile/modules/FileModule.cpp:bufferSize", "libaudiofile/data.cpp:afReadFrames,afWriteFrames"])
p("The layout of the caller's frames",
  "The bytes afReadFrames stores are the frames in the virtual format: samples of 1, 2, 4 or 8 bytes (24-bit ones in 4, sign-extended) in the virtual byte order, channel after channel, frame after frame, with the values of the file's samples (read in the file's width, packing and byte order) after conversion; afWriteFrames reads the caller's bytes the same way.",
  "every pair of formats, every byte order of file, caller and machine, every file contents, every split into pieces of 1024 frames",
  "All bytes of all combinations of formats.",
  ["libaudiofile/modules/SimpleModule.h", "libaudiofile/modules/ModuleState.cpp:arrange", "libaudiofile/AudioFormat.cpp:bytesPerSample", "libaudiofile/data.cpp:afReadFrames,afWriteFrames"])
p("The virtual format can be changed at any time",
  "While a file is open for reading, afSetVirtualSampleFormat, ByteOrder, Channels, PCMMapping, afSetTrackPCMMapping and afSetChannelMatrix may be called between reads and seeks: the position does not move, the frame count stays, and the next read delivers the next frames in the format set last, whatever was read or set before.",
  "every sequence of reads, seeks, queries and format changes, every file, every codec",
  "Histories are unbounded and the module chain is rebuilt lazily.",
  ["libaudiofile/modules/ModuleState.cpp:setup,reset", "libaudiofile/format.cpp:afSetVirtual*,afSetChannelMatrix,afSeekFrame", "libaudiofile/pcm.cpp:afSetVirtualPCMMapping,afSetTrackPCMMapping", "libaudiofile/data.cpp:afReadFrames"])
p("The virtual format can be changed between writes",
  "While a file is open for writing, the virtual sample format, byte order, channels, mapping and channel matrix may be changed between writes: the file holds, one after the other, the frames of all writes, each converted from the format in force when it was written; the frame count is the number of frames written.",
  "every sequence of writes, queries and format changes, every codec",
  "Histories are unbounded; the module chain is rebuilt in the middle of a block.",
  ["libaudiofile/modules/ModuleState.cpp:setup,sync", "libaudiofile/format.cpp:afSetVirtual*,afSetChannelMatrix,afGetFrameCount", "libaudiofile/data.cpp:afWriteFrames", "libaudiofile/openclose.cpp:afSyncFile,afCloseFile"])
p("The bytes written are the bytes read back",
  "An application that writes PCM frames in the default virtual format (the file's sample format in the machine's byte order), closes the file, opens it again and reads, gets exactly the bytes it wrote, in every uncompressed format the library writes, whatever the byte order of machine and file, also for 24-bit samples (held in four bytes) and for floating-point samples including NaNs.",
  "every frame contents, every split into writes, syncs and reads, every channel count, width and byte order, every PCM file format",
  "All byte contents in all formats, through converters chosen at run time, header patching and buffers of bounded size.",
  ["libaudiofile/data.cpp:afReadFrames,afWriteFrames", "libaudiofile/modules/ModuleState.cpp:arrange", "libaudiofile/modules/SimpleModule.h:SwapModule,Expand3To4Module,Compress4To3Module,ConvertSign", "libaudiofile/modules/PCM.cpp", "libaudiofile/openclose.cpp", "libaudiofile/WAVE.cpp", "libaudiofile/AIFF.cpp"])
p("Raw files are what the application says they are",
  "Opening any file as raw data with a setup that describes it gives as many frames as fit behind the data offset (or as many as the setup says, if the file has them), and sample c of frame i is the number in the bytes at its place; an offset behind the end is refused. A raw file written and opened again with the same description holds the frames written and nothing else.",
  "every file contents, every description (sample format, width, channels, byte order, G.711 compression, data offset, frame count), every history of writes and syncs",
  "All descriptions times all files; the frame size is computed in floating point.",
  ["libaudiofile/Raw.cpp:readInit,writeInit,update", "libaudiofile/util.cpp:_af_format_frame_size", "libaudiofile/units.cpp:_af_compression", "libaudiofile/Setup.cpp:afInitDataOffset,afInitFrameCount"])
p("sfconvert copies the whole file or says that it did not",
  "Converting a complete input with sfconvert succeeds, and the output holds every frame of the input, in order, converted from the input's format to the output's; with the same sample format in both files no sample changes, whatever the byte orders. Whatever the input, sfconvert says it succeeded only if it read and wrote all frames that were announced; a truncated input is not reported as converted. The copy buffer is never overrun.",
  "every input file and frame count, every pair of formats and codecs, every byte order, machine and build",
  "Inputs are unbounded, and the portions of 65536 frames are split again into the library's buffers and blocks.",
  ["sfcommands/sfconvert.c:main,copyaudiodata", "libaudiofile/data.cpp:afReadFrames,afWriteFrames", "libaudiofile/format.cpp:afGetFrameCount,afGetVirtualFrameSize,afSetVirtualChannels,afSetVirtualSampleFormat"])
p("A disk that fills up loses nothing that was counted, and the library says so",
  "While a file is written the disk may accept any part of each piece of data or refuse it. Whatever it does, no call of afWriteFrames, afSyncFile or afCloseFile goes wrong inside the library, and a call of afWriteFrames returns fewer frames than it was given exactly when an error is reported. If the application then stops, the file holds every frame that was counted, in order and undamaged (for block codecs: every complete block of them), and opened again it delivers them. If pieces are refused whole, writing the uncounted frames again delivers every frame exactly once.",
  "every sequence of answers of the operating system to write, every split of the frames into calls, every codec, conversion and build",
  "A test would have to make write fail at each byte of each file; the counting, positions and header must agree for all of them.",
  ["libaudiofile/File.cpp:FilePOSIX::write", "libaudiofile/modules/FileModule.cpp:write,reportWriteError", "libaudiofile/modules/PCM.cpp:runPush,sync2", "libaudiofile/modules/G711.cpp:runPush", "libaudiofile/modules/BlockCodec.cpp:runPush,sync2", "libaudiofile/modules/RebufferModule.cpp:runPush,sync2", "libaudiofile/modules/ModuleState.cpp:sync", "libaudiofile/data.cpp:afWriteFrames", "libaudiofile/openclose.cpp:afSyncFile,afCloseFile"])
p("A source that fails while a file is read delivers nothing wrong, and the library says so",
  "While a file is read the operating system, or the application's virtual file, may deliver any part of each piece that is asked for, or fail. Whatever it does, a read returns exactly the next frames of the file, all it was asked for unless it reports an error; the position, which afTellFrame tells, moves past the frames returned and no further; no assertion fails and nothing undefined happens, as long as after an error the application seeks to another position before it reads on. Doing so it gets every frame, once the source delivers.",
  "every sequence of answers of the operating system to read, every history of reads, seeks and tells, every codec, conversion and build",
  "A test would have to make read fail or fall short at each byte of each file, at each point of each history of calls.",
  ["libaudiofile/File.cpp:FilePOSIX::read,FileVF::read", "libaudiofile/modules/FileModule.cpp:read,reportReadError", "libaudiofile/modules/PCM.cpp:runPull,reset2", "libaudiofile/modules/G711.cpp:runPull,reset2", "libaudiofile/modules/BlockCodec.cpp:runPull,reset1,reset2", "libaudiofile/modules/RebufferModule.cpp:runPull", "libaudiofile/data.cpp:afReadFrames", "libaudiofile/format.cpp:afSeekFrame"])
p("Of a file whose end is missing everything that is there is read",
  "A file whose header promises more audio data than the file contains (a copy that was interrupted, a partial download) delivers, for every history of reads and seeks that stays within the frames it contains whole (for block codecs: in whole blocks), exactly what the complete file delivers. Beyond that a read returns none but frames of the complete file, in order, reports an error whenever it returns fewer than it was asked for and the header promises, and moves the position past those it returned only; nothing undefined happens as long as after an error the application seeks to another position before it reads on.",
  "every file, every point at which it is cut off, every history of reads, seeks and tells, every codec, conversion and build",
  "All points of truncation times all histories; reading works in chunks of 1024 frames and in blocks, and the loops of several modules must agree where the data ends.",
  ["libaudiofile/modules/FileModule.cpp:read,reportReadError", "libaudiofile/modules/PCM.cpp:runPull", "libaudiofile/modules/G711.cpp:runPull", "libaudiofile/modules/BlockCodec.cpp:runPull", "libaudiofile/modules/RebufferModule.cpp:runPull", "libaudiofile/data.cpp:afReadFrames", "libaudiofile/format.cpp:afSeekFrame,afGetFrameCount"])
p("Written files conform to their format's layout",
  "After any history of writes and syncs that ends with a sync or close, the bytes of the file are laid out as the file format's published description says: the signature, the chunks in order with their sizes, every field at its place in its byte order with the value that the setup, the metadata and the number of frames written call for, the audio data where the header says it is, and nothing after what the header accounts for, so that programs other than this library read them.",
  "every history of writes and syncs, every setup, every PCM and G.711 encoding (AIFF-C: also IMA ADPCM), every metadata, every format the library writes",
  "A round trip through the library's own reader accepts any layout on which reader and writer agree; sizes and counts are patched after the data, for unbounded lengths.",
  ["libaudiofile/CAF.cpp:writeInit,writeDescription,update", "libaudiofile/NeXT.cpp:writeHeader", "libaudiofile/AVR.cpp:writeInit,update", "libaudiofile/IRCAM.cpp:writeInit", "libaudiofile/VOC.cpp:writeInit,writeSoundData,writeTerminator", "libaudiofile/SampleVision.cpp:writeInit,writeTrailer", "libaudiofile/NIST.cpp:writeHeader", "libaudiofile/IFF.cpp:writeVHDR,writeBODY,update", "libaudiofile/AIFF.cpp:writeCOMM,writeMARK,writeINST,writeSSND,update", "libaudiofile/WAVE.cpp:writeFormat,writeFrameCount,writeData,writeCues,update"])
p("Refused calls have no effect, and settings are reported as they were made",
  "A call on an open file with a null handle, a track the file does not have, of the kind the file was not opened for, or with an unknown byte order, sample format, sample width or a negative rate answers with its failure value and changes nothing: every other call answers as if it had not been made. The functions that report the formats of the file and of the application (channels, byte order, rate, sample format and width, PCM mapping) report at any time what the last accepted call set, or what was there when the file was opened.",
  "every history of calls with every argument, on files opened for reading and for writing, every codec and build",
  "All interleavings of accepted and refused calls with arbitrary arguments; a setter that changes something before it refuses shows only in later calls.",
  ["libaudiofile/format.cpp:afSetVirtual*,afGet*,afSeekFrame,afTellFrame,afGetFrameCount", "libaudiofile/data.cpp:afReadFrames,afWriteFrames", "libaudiofile/pcm.cpp:afSetVirtualPCMMapping,afSetTrackPCMMapping,afGetPCMMapping,afGetVirtualPCMMapping", "libaudiofile/FileHandle.cpp:getTrack,checkCanRead,checkCanWrite", "libaudiofile/util.cpp:_af_filehandle_ok,_af_set_sample_format", "libaudiofile/openclose.cpp:afSyncFile"])
p("The frame sizes reported are the sizes of the frames",
  "After any history of calls afGetVirtualFrameSize (stretched) reports the bytes a frame takes in the application's memory in the virtual format then in force: a buffer of n times that size is filled exactly, to its last byte and no further, by a read of n frames, and a write of n frames reads nothing beyond it. afGetFrameSize (not stretched) reports the bytes a frame takes in the file.",
  "every history of calls, every sample format, width, byte order and channel count, every conversion and buffer contents",
  "An application allocates its buffers from these numbers; a size that is too small for one of the countless virtual formats is a heap overflow, which a test sees only for the formats it tries.",
  ["libaudiofile/format.cpp:afGetFrameSize,afGetVirtualFrameSize", "libaudiofile/util.cpp:_af_format_frame_size,_af_format_frame_size_uncompressed,_af_format_sample_size_uncompressed", "libaudiofile/units.cpp:squishFactor", "libaudiofile/AudioFormat.cpp:bytesPerSample,bytesPerFrame", "libaudiofile/data.cpp:afReadFrames,afWriteFrames"])
p("AES channel status data are kept as they were stored",
  "A file opened for writing has AES data in exactly the tracks for which the setup last asked for it; afGetAESChannelData answers 1 with the 24 bytes last stored by afSetAESChannelData while the file is open for writing (zeros before), 0 with zeros for a track without AES data and -1 for a track that does not exist; storing into such a track, or into a file open for reading, changes nothing. An AIFF or AIFF-C file that is written and opened again has the bytes last stored, and no AES data if none were asked for, with its audio data unchanged.",
  "every history of calls on the setup and on the file, every 24 bytes, every history of writes and syncs, every other metadata",
  "All interleavings of stores into several tracks with writing and syncing; the chunk is overwritten in place at each update.",
  ["libaudiofile/aes.cpp:afInitAESChannelData,afInitAESChannelDataTo,afGetAESChannelData,afSetAESChannelData", "libaudiofile/AIFF.cpp:parseAESD,writeAESD", "libaudiofile/FileHandle.cpp:copyTracksFromSetup", "libaudiofile/Track.cpp:Track"])
if __name__ == "__main__":
    out = os.path.join(os.path.dirname(os.path.abspath(__file__)), "..", "properties.jsonl")
    with open(out, "w") as f:
        for x in P: f.write(json.dumps(x) + "\n")
    print(len(P), "properties")
