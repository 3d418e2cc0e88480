{"id": "C01", "title": "mu-law codes survive a decode/encode round trip", "statement": "Decoding any mu-law code byte to linear and encoding the result gives back the same byte, except that the negative-zero code 0x7F comes back as the positive-zero code 0xFF, which decodes to the same sample.", "quantifier": "every mu-law byte; every sample sequence in a mu-law file", "why_tests_cant": "Holds for whole files of any length and any mixture of codes; a test reads a few sample files.", "anchors": ["libaudiofile/g711.c:_af_linear2ulaw", "libaudiofile/g711.c:_af_ulaw2linear"]}
{"id": "C02", "title": "mu-law quantisation is monotone and its error is bounded", "statement": "For every 16-bit sample the decoded code is a 16-bit value, encoding is monotone (a larger sample never decodes to a smaller value), encode-decode is idempotent, and the error is at most half the step of the sample's segment up to magnitude 32635, above which the result saturates at 32124.", "quantifier": "every pair of 16-bit linear samples", "why_tests_cant": "Monotonicity ranges over pairs of samples and the error bound over all segments.", "anchors": ["libaudiofile/g711.c:_af_linear2ulaw", "libaudiofile/g711.c:_af_ulaw2linear", "libaudiofile/modules/G711.cpp"]}
{"id": "C03", "title": "A-law codes survive a decode/encode round trip", "statement": "Decoding any A-law code byte and encoding the result gives back the same byte.", "quantifier": "every A-law byte; every sample sequence in an A-law file", "why_tests_cant": "Holds for whole files of any length and any mixture of codes.", "anchors": ["libaudiofile/g711.c:_af_linear2alaw", "libaudiofile/g711.c:_af_alaw2linear"]}
{"id": "C04", "title": "A-law quantisation is monotone and its error is bounded", "statement": "For every 16-bit sample the decoded code is a 16-bit value, encoding is monotone, encode-decode is idempotent, and the error is bounded by the step of the sample's segment.", "quantifier": "every pair of 16-bit linear samples", "why_tests_cant": "Ranges over all pairs of samples; the special handling of small negative samples is easy to miss in a test.", "anchors": ["libaudiofile/g711.c:_af_linear2alaw", "libaudiofile/g711.c:_af_alaw2linear"]}
{"id": "C05", "title": "Byte order never changes a value", "statement": "Byte swapping 16-, 32- and 64-bit quantities is an involution, and a header field or sample written in either byte order and read in the same order is unchanged, on a host of either endianness.", "quantifier": "every value of each width, both file byte orders, both host byte orders", "why_tests_cant": "A test runs on one host endianness and on a handful of values.", "anchors": ["libaudiofile/byteorder.h:byteswap", "libaudiofile/FileHandle.cpp:readU16,readU32,readU64,writeU16,writeU32,writeU64", "libaudiofile/modules/SimpleModule.h:SwapModule"]}
{"id": "C06", "title": "Signed/unsigned sample conversion is an order-preserving bijection", "statement": "Converting signed samples to unsigned and back (or the reverse) at 8, 16, 24 and 32 bits returns the same samples, keeps them in the range of the width and preserves order.", "quantifier": "every sample of every integer width", "why_tests_cant": "Must hold for every sample value and for every buffer length.", "anchors": ["libaudiofile/modules/SimpleModule.h:ConvertSign"]}
{"id": "C07", "title": "24-bit packing is lossless", "statement": "Unpacking a packed 24-bit sample to its in-memory form and packing it again gives the same three bytes; packing an in-range 24-bit sample and unpacking it gives the same sample, for signed and unsigned data.", "quantifier": "every 24-bit sample in buffers of any length", "why_tests_cant": "Needs every sample value and sign.", "anchors": ["libaudiofile/modules/SimpleModule.cpp:Expand3To4", "libaudiofile/modules/SimpleModule.h:Compress4To3,Expand3To4Module"]}
{"id": "C08", "title": "Widening integer samples is lossless and narrowing is truncation", "statement": "Converting signed integer samples to a wider integer virtual format and back returns the same samples, widening preserves order and full-scale sign, narrowing keeps the top bits and stays in range; conversions compose.", "quantifier": "every pair of integer widths and every sample", "why_tests_cant": "All 16 width pairs times all sample values.", "anchors": ["libaudiofile/modules/SimpleModule.h:ConvertInt"]}
{"id": "C09", "title": "Clipping confines samples to the mapped range and fixes values already inside it", "statement": "The clip step always produces a sample between the minimum and maximum of the format's PCM mapping, leaves samples already within that range unchanged, is idempotent and monotone.", "quantifier": "every sample and every pair of clip limits", "why_tests_cant": "Any sample and any afSetVirtualPCMMapping limits.", "anchors": ["libaudiofile/modules/SimpleModule.h:Clip", "libaudiofile/modules/SimpleModule.h:ConvertFloatToIntClip"]}
{"id": "C10", "title": "Channel mixing applies exactly the configured matrix", "statement": "Each output frame is the product of the channel matrix with the corresponding input frame, frames are never mixed with each other, the identity matrix copies frames unchanged and the built-in mono-to-stereo and stereo-to-quad matrices copy channels exactly.", "quantifier": "every frame count, every channel count, every matrix", "why_tests_cant": "All sizes of buffers and all channel-count pairs.", "anchors": ["libaudiofile/modules/SimpleModule.cpp:ApplyChannelMatrix"]}
{"id": "C11", "title": "Channel mixing of integers never overflows", "statement": "Mixing in-range integer channels with the built-in matrices yields a sample in the range of the integer type.", "quantifier": "every frame of in-range integer samples", "why_tests_cant": "Overflow needs specific loud frames on all channels.", "anchors": ["libaudiofile/modules/SimpleModule.cpp:ApplyChannelMatrix::run"]}
{"id": "C12", "title": "IMA ADPCM predictor state never leaves its legal range", "statement": "Whatever codes are decoded or samples encoded, starting from a legal state the step index stays in 0..88 and the predicted value stays a 16-bit sample.", "quantifier": "every legal start state and every sequence of codes or samples", "why_tests_cant": "An invariant over code sequences of unbounded length.", "anchors": ["libaudiofile/modules/IMA.cpp:decodeSample,encodeSample"]}
{"id": "C13", "title": "IMA ADPCM encoder and decoder stay in lock step", "statement": "Decoding an encoded block reproduces exactly the sequence of values the encoder itself reconstructed, and leaves the decoder in the encoder's final state, so no drift accumulates.", "quantifier": "every legal state, every sample block, any channel count", "why_tests_cant": "Drift would only show up after unboundedly many samples.", "anchors": ["libaudiofile/modules/IMA.cpp:encodeBlockWAVE,decodeBlockWAVE,encodeBlockQT,decodeBlockQT"]}
{"id": "C14", "title": "IMA ADPCM encoded blocks have exactly the declared size", "statement": "Encoding a block of N frames produces exactly the number of bytes the file header declares per packet and decoding such a block yields exactly N frames.", "quantifier": "every channel count and block", "why_tests_cant": "All channel counts and packet sizes.", "anchors": ["libaudiofile/modules/IMA.cpp", "libaudiofile/WAVE.cpp:initIMACompressionParams"]}
{"id": "C15", "title": "Decoding IMA ADPCM data from an untrusted file is memory safe", "statement": "Decoding any bytes as IMA ADPCM never indexes outside the step table.", "quantifier": "every byte content of a block", "why_tests_cant": "Requires adversarial block headers.", "anchors": ["libaudiofile/modules/IMA.cpp:decodeBlockWAVE,decodeBlockQT"]}
{"id": "C16", "title": "WAVE IMA ADPCM keeps every frame at its position", "statement": "After writing frames to a WAVE IMA file and reading it back, frame i approximates the frame i that was written.", "quantifier": "every sequence of frames", "why_tests_cant": "Needs a relation between all positions of arbitrarily long streams.", "anchors": ["libaudiofile/modules/IMA.cpp:encodeBlockWAVE,decodeBlockWAVE"]}
{"id": "C17", "title": "MS ADPCM stores the first two frames of each block exactly and stays in lock step", "statement": "Decoding an encoded MS ADPCM block reproduces the first two frames exactly and all later frames as the encoder reconstructed them, in 16-bit range, for mono and stereo.", "quantifier": "every block of 16-bit frames", "why_tests_cant": "All sample blocks.", "anchors": ["libaudiofile/modules/MSADPCM.cpp:encodeBlock,decodeBlock"]}
{"id": "C18", "title": "MS ADPCM encoding never overflows and keeps the step at least 16", "statement": "Encoding any 16-bit samples keeps the adaptive step at least 16 and within 16 bits so that the block header can represent it, and performs no overflowing arithmetic.", "quantifier": "every sequence of 16-bit samples", "why_tests_cant": "An invariant over unboundedly many samples.", "anchors": ["libaudiofile/modules/MSADPCM.cpp:encodeSample,choosePredictorForBlock"]}
{"id": "C19", "title": "Decoding MS ADPCM data from an untrusted file has defined behaviour", "statement": "Decoding any bytes as MS ADPCM performs no undefined arithmetic.", "quantifier": "every byte content of a block", "why_tests_cant": "Requires adversarial blocks.", "anchors": ["libaudiofile/modules/MSADPCM.cpp:decodeSample,decodeBlock"]}
{"id": "C20", "title": "Rebuffering on reading preserves the frame stream", "statement": "When a codec delivers fixed-size blocks and the application reads arbitrary numbers of frames, the concatenation of what the application gets is exactly the concatenation of the decoded blocks: no frame is lost, duplicated or reordered.", "quantifier": "every block size, every sequence of request sizes", "why_tests_cant": "Ranges over all histories of read sizes.", "anchors": ["libaudiofile/modules/RebufferModule.cpp:runPull"]}
{"id": "C21", "title": "Rebuffering on writing preserves the frame stream", "statement": "When the application writes arbitrary numbers of frames and the codec takes fixed-size blocks, the codec receives exactly the written frames in order in full blocks, and a final sync delivers the remainder.", "quantifier": "every block size, every sequence of write sizes", "why_tests_cant": "Ranges over all histories of write sizes.", "anchors": ["libaudiofile/modules/RebufferModule.cpp:runPush,sync1,sync2"]}
{"id": "C22", "title": "Syncing a file being written is transparent", "statement": "Calling afSyncFile at any points between writes does not change the final contents of the audio data.", "quantifier": "every interleaving of writes and syncs", "why_tests_cant": "All interleavings of two operations.", "anchors": ["libaudiofile/openclose.cpp:afSyncFile", "libaudiofile/modules/RebufferModule.cpp:sync1,sync2", "libaudiofile/modules/PCM.cpp:sync1,sync2", "libaudiofile/modules/BlockCodec.cpp:sync1,sync2"]}
{"id": "C23", "title": "Splitting reads does not change the data", "statement": "Reading n+m frames in one call returns the same frames and leaves the same position as reading n and then m frames; by iteration any way of splitting a read gives the same data, and each call returns exactly min(requested, remaining) frames.", "quantifier": "every file, position and sequence of read sizes", "why_tests_cant": "All splits of all reads; internal chunking boundary cases.", "anchors": ["libaudiofile/data.cpp:afReadFrames", "libaudiofile/modules/PCM.cpp:runPull"]}
{"id": "C24", "title": "Splitting writes does not change the file", "statement": "Writing frames in one call or in any number of smaller calls produces the same file bytes and frame count.", "quantifier": "every sequence of frames and every split into calls", "why_tests_cant": "All splits of all writes.", "anchors": ["libaudiofile/data.cpp:afWriteFrames", "libaudiofile/modules/PCM.cpp:runPush"]}
{"id": "C25", "title": "Seeking positions exactly and never leaves the file", "statement": "afSeekFrame to frame k in 0..count makes k the current frame and returns k; a later read returns frames k, k+1, ...; a negative argument only reports the position; the position always stays within 0..count.", "quantifier": "every file, history of reads and seeks", "why_tests_cant": "All histories of seeks and reads.", "anchors": ["libaudiofile/format.cpp:afSeekFrame,afTellFrame", "libaudiofile/data.cpp:afReadFrames"]}
{"id": "C26", "title": "afTellFrame equals the number of frames transferred since the last seek", "statement": "After any history of reads and seeks the reported position is the last seek target plus the frames read since.", "quantifier": "every history", "why_tests_cant": "All histories.", "anchors": ["libaudiofile/format.cpp:afTellFrame", "libaudiofile/data.cpp"]}
{"id": "C27", "title": "Large files survive a sync", "statement": "afSyncFile on a file being written restores the write position for data of any size.", "quantifier": "every file size", "why_tests_cant": "Needs files above 2 GiB.", "anchors": ["libaudiofile/modules/PCM.cpp:sync1,sync2"]}
{"id": "C28", "title": "NeXT/Sun .au write-then-read round trip", "statement": "A .au file written with any supported format and any frames and closed re-opens with the same sample format, channel count, rate and frame count, and reading returns the frames.", "quantifier": "every supported format, every frame sequence, every split of writes and reads", "why_tests_cant": "All parameter combinations and data.", "anchors": ["libaudiofile/NeXT.cpp"]}
{"id": "C29", "title": "AVR write-then-read round trip", "statement": "An AVR file written and closed re-opens with the same format, rate and frame count and the same frames.", "quantifier": "every supported format and frame sequence", "why_tests_cant": "All parameter combinations and data.", "anchors": ["libaudiofile/AVR.cpp"]}
{"id": "C30", "title": "IFF/8SVX write-then-read round trip", "statement": "An IFF/8SVX file written and closed re-opens with the same rate, frame count, miscellaneous chunks and frames, its chunks are padded to even size, and its FORM length is the file length minus 8.", "quantifier": "every frame sequence (odd and even lengths) and chunk list", "why_tests_cant": "All lengths and chunk lists.", "anchors": ["libaudiofile/IFF.cpp"]}
{"id": "C31", "title": "BICSF (IRCAM) write-then-read round trip", "statement": "A BICSF file written and closed re-opens with the same format, channel count, frame count and frames.", "quantifier": "every supported format and frame sequence", "why_tests_cant": "All parameter combinations and data.", "anchors": ["libaudiofile/IRCAM.cpp"]}
{"id": "C32", "title": "VOC write-then-read round trip", "statement": "A VOC file written and closed re-opens with the same format, rate, channels, frame count and frames.", "quantifier": "every supported format and frame sequence", "why_tests_cant": "All sizes, including those beyond the 24-bit block length field.", "anchors": ["libaudiofile/VOC.cpp"]}
{"id": "C33", "title": "Sample Vision write-then-read round trip", "statement": "A Sample Vision file written and closed re-opens with the same rate, frame count and frames.", "quantifier": "every frame sequence", "why_tests_cant": "All data.", "anchors": ["libaudiofile/SampleVision.cpp"]}
{"id": "C34", "title": "NIST SPHERE write-then-read round trip", "statement": "A NIST SPHERE file written and closed re-opens with the same format, rate, channels, frame count and frames.", "quantifier": "every supported format and frame sequence", "why_tests_cant": "All numeric field values in the textual header.", "anchors": ["libaudiofile/NIST.cpp"]}
{"id": "C35", "title": "WAVE write-then-read round trip", "statement": "A WAVE file written and closed re-opens with the same format, rate, channels, frame count, markers, miscellaneous data and frames.", "quantifier": "every supported format, frame sequence, marker list and miscellaneous list", "why_tests_cant": "All parameter combinations and data.", "anchors": ["libaudiofile/WAVE.cpp"]}
{"id": "C36", "title": "AIFF/AIFF-C write-then-read round trip", "statement": "An AIFF or AIFF-C file written and closed re-opens with the same format, rate, channels, frame count, markers, miscellaneous data, instrument parameters and frames.", "quantifier": "every supported format, frame sequence, marker list and miscellaneous list", "why_tests_cant": "All parameter combinations and data.", "anchors": ["libaudiofile/AIFF.cpp"]}
{"id": "C37", "title": "CAF write-then-read round trip", "statement": "A CAF file written and closed re-opens with the same format, rate, channels, frame count and frames.", "quantifier": "every supported format and frame sequence", "why_tests_cant": "All parameter combinations and data.", "anchors": ["libaudiofile/CAF.cpp"]}
{"id": "C38", "title": "Opening any file terminates", "statement": "Opening any byte sequence as WAVE, AIFF, IFF, CAF, VOC or NeXT returns (successfully or with an error) after finitely many steps.", "quantifier": "every byte sequence", "why_tests_cant": "Non-termination needs adversarial chunk sizes.", "anchors": ["libaudiofile/WAVE.cpp:readInit", "libaudiofile/AIFF.cpp:readInit", "libaudiofile/IFF.cpp:readInit", "libaudiofile/CAF.cpp:readInit", "libaudiofile/VOC.cpp:readInit"]}
{"id": "C39", "title": "Variable-length packet sizes round trip through the packet table", "statement": "Any list of packet sizes written to a CAF packet table is read back unchanged and consumes exactly the bytes written.", "quantifier": "every list of packet sizes below 2^31", "why_tests_cant": "All sizes and list lengths.", "anchors": ["libaudiofile/CAF.cpp:encodeBERInteger,readBERInteger,writePacketTable,parsePacketTable", "libaudiofile/PacketTable.cpp"]}
{"id": "C40", "title": "Packet offsets are the prefix sums of packet sizes", "statement": "The start of packet i is the sum of the sizes of packets 0..i-1, so consecutive packets tile the data without gaps or overlap.", "quantifier": "every packet table", "why_tests_cant": "All histories of appends.", "anchors": ["libaudiofile/PacketTable.cpp"]}
{"id": "C41", "title": "80-bit sample rates round trip", "statement": "Every sample rate representable as a finite double of normal exponent range written as an 80-bit extended value is read back exactly.", "quantifier": "every finite nonnegative double", "why_tests_cant": "All doubles.", "anchors": ["libaudiofile/extended.c"]}
{"id": "C42", "title": "Pascal strings round trip and keep even alignment", "statement": "A marker name or string of up to 255 bytes written as a Pascal string is read back unchanged and occupies an even number of bytes.", "quantifier": "every byte string", "why_tests_cant": "All lengths, both parities.", "anchors": ["libaudiofile/AIFF.cpp:writePString,readPString"]}
{"id": "C43", "title": "Miscellaneous chunk data behaves like a bounded file", "statement": "afWriteMisc, afReadMisc and afSeekMisc on a chunk never access outside the chunk's declared size, transfer min(requested, remaining) bytes, and reading back after seeking to the start returns exactly what was written.", "quantifier": "every history of read, write and seek calls", "why_tests_cant": "All histories and offsets.", "anchors": ["libaudiofile/Miscellaneous.cpp"]}
{"id": "C44", "title": "Marker queries return what was set", "statement": "Setting a marker position is returned by the next query of that marker, does not affect other markers, negative positions become 0, and is refused for unknown ids and files open for reading; marker id listing returns exactly the distinct ids configured.", "quantifier": "every marker list and history of calls", "why_tests_cant": "All id lists and histories.", "anchors": ["libaudiofile/Marker.cpp", "libaudiofile/Track.cpp:getMarker"]}
{"id": "C45", "title": "Loop queries return what was set", "statement": "Loop mode, count, start and end marker and track set on a loop are returned by the next query and no other loop or field changes; invalid modes, counts or ids are refused without effect.", "quantifier": "every instrument/loop table and history of calls", "why_tests_cant": "All histories.", "anchors": ["libaudiofile/Loop.cpp", "libaudiofile/Instrument.cpp:getLoop"]}
{"id": "C46", "title": "Instrument parameter queries return what was set", "statement": "An instrument parameter set to a valid value is returned by the next query and no other parameter or instrument changes; unknown parameters and invalid values are ignored.", "quantifier": "every instrument table and history", "why_tests_cant": "All histories.", "anchors": ["libaudiofile/Instrument.cpp", "libaudiofile/AIFF.cpp:isInstrumentParameterValid", "libaudiofile/WAVE.cpp:isInstrumentParameterValid"]}
{"id": "C47", "title": "Parameter-value lists behave like arrays", "statement": "After AUpvnew(n) an item's parameter, type and value read back as last set, other items are unaffected and out-of-range items are rejected.", "quantifier": "every list size and history of calls", "why_tests_cant": "All histories.", "anchors": ["libaudiofile/aupv.c"]}
{"id": "C48", "title": "Duplicate ids are always rejected", "statement": "afInitMarkIDs, afInitLoopIDs, afInitInstIDs, afInitMiscIDs and afInitTrackIDs accept an id list exactly when its entries are pairwise distinct (and positive where required).", "quantifier": "every id list", "why_tests_cant": "All lists of any length.", "anchors": ["libaudiofile/util.cpp:_af_unique_ids"]}
{"id": "C49", "title": "An accepted setup is always writable in its format", "statement": "If a file format accepts a file setup then the resulting track format is one the format's header writer can represent.", "quantifier": "every setup and file format", "why_tests_cant": "The cross product of all setup fields.", "anchors": ["libaudiofile/*.cpp:completeSetup"]}
{"id": "C50", "title": "Files are identified as the format they were written in", "statement": "A file written in format F and closed is identified by afOpenFile as format F.", "quantifier": "every written file", "why_tests_cant": "All contents of all files.", "anchors": ["libaudiofile/openclose.cpp:_af_identify", "libaudiofile/units.cpp", "*:recognize"]}
{"id": "C51", "title": "Frame counts and sizes are consistent", "statement": "The number of frames reported for a file is the data size divided by the packet size times the frames per packet, and the reported frame size is the sample size times the channel count.", "quantifier": "every format and size", "why_tests_cant": "All formats and sizes.", "anchors": ["libaudiofile/Track.cpp:computeTotalFileFrames", "libaudiofile/AudioFormat.cpp", "libaudiofile/util.cpp"]}
{"id": "C52", "title": "Integer samples survive a trip through floating-point virtual format", "statement": "Reading 8-, 16- or 24-bit integer samples in the float or double virtual format (32-bit in double) and converting back yields the same samples; float values outside full scale are clipped to the integer range.", "quantifier": "every sample", "why_tests_cant": "Every sample value and both float widths.", "anchors": ["libaudiofile/modules/SimpleModule.h:ConvertIntToFloat,ConvertFloatToIntClip,Transform", "libaudiofile/modules/ModuleState.cpp:arrange"]}
{"id": "C53", "title": "A synced file is readable after a crash", "statement": "If the process dies after afSyncFile, at any later point during further writes, the file on disk re-opens with exactly the frames that had been written at the sync.", "quantifier": "every crash point after every sync, every data", "why_tests_cant": "Crash points.", "anchors": ["libaudiofile/openclose.cpp:afSyncFile", "libaudiofile/NeXT.cpp:update,readInit", "libaudiofile/AIFF.cpp:update,readInit", "libaudiofile/WAVE.cpp:update,readInit", "libaudiofile/IFF.cpp:update,readInit", "libaudiofile/CAF.cpp:readInit", "libaudiofile/VOC.cpp:readInit", "libaudiofile/IRCAM.cpp:readInit", "libaudiofile/SampleVision.cpp:readInit"]}
{"id": "C54", "title": "Queries never access outside the format table", "statement": "afQuery with any arguments returns a value or an error and never indexes outside the library's tables.", "quantifier": "every argument tuple", "why_tests_cant": "All integer arguments.", "anchors": ["libaudiofile/query.cpp"]}
{"id": "C55", "title": "What was written is what is read", "statement": "Frames written with afWriteFrames in any number of calls, with afSyncFile at any points between writes, and read back after closing, are the frames written: exactly for integer PCM, quantised sample by sample for G.711, and as the encoder's own reconstruction for ADPCM; the frame count is the number of frames written.", "quantifier": "every sequence of frames, every split into writes and syncs, every history of reads and seeks, every sample width, byte order and channel count", "why_tests_cant": "All data and all call histories on both sides.", "anchors": ["libaudiofile/data.cpp:afWriteFrames,afReadFrames", "libaudiofile/modules/PCM.cpp", "libaudiofile/modules/G711.cpp", "libaudiofile/modules/BlockCodec.cpp", "libaudiofile/modules/IMA.cpp", "libaudiofile/modules/MSADPCM.cpp"]}
{"id": "C56", "title": "A file depends only on what was written", "statement": "Two programs that write the same frames with the same setup produce the same file, whatever the memory of the process contained.", "quantifier": "every sequence of frames and every memory content", "why_tests_cant": "Memory contents.", "anchors": ["libaudiofile/modules/BlockCodec.cpp:runPush", "libaudiofile/modules/RebufferModule.cpp", "libaudiofile/modules/ModuleState.cpp:arrange"]}
{"id": "C57", "title": "Opening any file is defined behaviour", "statement": "afOpenFile on a file with arbitrary contents either succeeds or reports an error: it never uses an uninitialised value, overflows a signed integer, divides by zero, accesses memory out of bounds or fails an assertion.", "quantifier": "every byte sequence", "why_tests_cant": "All byte sequences.", "anchors": ["libaudiofile/*:readInit", "libaudiofile/FileHandle.cpp:readU32", "libaudiofile/AudioFormat.cpp:computeBytesPerPacketPCM"]}
{"id": "C58", "title": "Seeking in a variable-size packet file stays inside its packet table", "statement": "Seeking to any frame of an ALAC file positions the file at the start of the packet holding that frame and never reads outside the packet table or divides by zero.", "quantifier": "every packet table, frame count and frame number", "why_tests_cant": "All tables, including inconsistent ones.", "anchors": ["libaudiofile/modules/ALAC.cpp:reset1,reset2", "libaudiofile/PacketTable.cpp:startOfPacket", "libaudiofile/CAF.cpp:parsePacketTable,parseDescription"]}
{"id": "C59", "title": "The converter chain delivers the requested format", "statement": "For every pair of file and virtual sample formats, widths, PCM mappings, byte orders and channel counts a chain of converters is built in which every step receives samples of the type it handles, and the frames that come out have the sample type and the number of channels asked for.", "quantifier": "every pair of formats, every frame", "why_tests_cant": "The pairs of formats, mappings and channel counts are unbounded in number.", "anchors": ["libaudiofile/modules/ModuleState.cpp:arrange", "libaudiofile/modules/SimpleModule.h", "libaudiofile/util.cpp:_af_set_sample_format"]}
{"id": "C60", "title": "A file that opens has a usable format", "statement": "Whenever afOpenFile succeeds on a file, whatever its contents, the track has at least one channel, a sample width that suits its sample format, packets that hold at least one frame and one byte (PCM: exactly one frame of channels times sample size), and the audio data does not start before the file does.", "quantifier": "every byte sequence, every file format", "why_tests_cant": "Files are arbitrary byte sequences; the check must cover all header contents.", "anchors": ["libaudiofile/WAVE.cpp:parseFormat", "libaudiofile/AIFF.cpp:parseCOMM", "libaudiofile/CAF.cpp:parseDescription", "libaudiofile/NIST.cpp:readInit", "libaudiofile/NeXT.cpp:readInit", "libaudiofile/VOC.cpp:readInit", "libaudiofile/IRCAM.cpp:readInit", "libaudiofile/AVR.cpp:readInit", "libaudiofile/IFF.cpp", "libaudiofile/SampleVision.cpp"]}
{"id": "C61", "title": "Files of other programs are read as their format says", "statement": "Header variants the library reads but does not write itself (VOC old-style and extended sound blocks, IRCAM files of the other machine types, NeXT files of unknown length, AIFF-C sample types twos, sowt, in24, in32, FL32, FL64, ULAW, ALAW, WAVE extensible headers) give the format, data position and frame count they describe.", "quantifier": "every rate, channel count and amount of data, every variant", "why_tests_cant": "Field values and file sizes are unbounded in number.", "anchors": ["libaudiofile/VOC.cpp:readInit", "libaudiofile/IRCAM.cpp:readInit", "libaudiofile/NeXT.cpp:readInit", "libaudiofile/AIFF.cpp:parseCOMM", "libaudiofile/WAVE.cpp:parseFormat"]}
{"id": "C62", "title": "An accepted setup is honoured", "statement": "When afOpenFile accepts a setup for writing, the file has the channel count, sample rate, compression and sample width the setup asks for, the sample format up to a signedness the file format lacks, and the byte order where it matters; the frames the program passes are in the setup's sample format at full scale, and when the file keeps that sample format they are stored unchanged.", "quantifier": "every sequence of setup calls, every file format, every frame", "why_tests_cant": "Setups are histories of calls; frames are arbitrary.", "anchors": ["libaudiofile/openclose.cpp:_afOpenFile", "libaudiofile/Setup.cpp", "libaudiofile/*:completeSetup", "libaudiofile/modules/ModuleState.cpp:arrange"]}
{"id": "C63", "title": "A setup can be used again", "statement": "Opening a file for writing does not spoil the setup: a second file opened with the same setup, of the same or another file format, gets the format a fresh setup with the same calls would give.", "quantifier": "every sequence of setup calls, every pair of file formats", "why_tests_cant": "Histories of calls and opens.", "anchors": ["libaudiofile/openclose.cpp:_afOpenFile", "libaudiofile/*:completeSetup", "libaudiofile/Setup.cpp:_af_filesetup_copy"]}
{"id": "C64", "title": "ALAC files are lossless", "statement": "Whatever frames a program writes to an ALAC file, in however many packets, reading the packets with the packet table gives the same frames, from the beginning or after seeking to any frame; a depth of 20 bits keeps the upper 20 of 24.", "quantifier": "every depth, 1 to 8 channels, every sequence of packets of every length, every frame to seek to", "why_tests_cant": "Sample sequences are unbounded and the coder adapts to all that came before.", "anchors": ["libaudiofile/alac/ALACEncoder.cpp:Encode", "libaudiofile/alac/ALACDecoder.cpp:Decode", "libaudiofile/alac/ag_enc.c", "libaudiofile/alac/ag_dec.c", "libaudiofile/alac/dp_enc.c", "libaudiofile/alac/dp_dec.c", "libaudiofile/alac/matrix_enc.c", "libaudiofile/alac/matrix_dec.c", "libaudiofile/modules/ALAC.cpp:runPush,runPull"]}
{"id": "C65", "title": "Decoding an ALAC packet is memory safe and ends", "statement": "Whatever bytes a packet holds, decoding it ends, reads only the packet's buffer and writes only the output buffer and the decoder's own arrays.", "quantifier": "every byte sequence, every magic cookie", "why_tests_cant": "Packets are arbitrary byte sequences.", "anchors": ["libaudiofile/alac/ALACDecoder.cpp:Decode", "libaudiofile/alac/ag_dec.c:dyn_decomp", "libaudiofile/alac/dp_dec.c:unpc_block", "libaudiofile/modules/ALAC.cpp:runPull"]}
{"id": "C66", "title": "The ALAC encoder stays inside its buffer", "statement": "Encoding any frames never writes outside the buffer the library allocates for a packet, never fails and yields packets no longer than the buffer size the reader allocates.", "quantifier": "every depth, 1 to 8 channels, every sequence of packets", "why_tests_cant": "The longest code depends on all samples of all packets so far.", "anchors": ["libaudiofile/alac/ALACEncoder.cpp:Encode", "libaudiofile/modules/ALAC.cpp:bufferSize,runPush", "libaudiofile/modules/ModuleState.cpp:setup"]}
{"id": "C67", "title": "Conversions stay inside their buffers", "statement": "Reading or writing frames through any combination of file and virtual formats, mappings and channel matrices never reads or writes outside the caller's buffer or the library's own; a read of n frames stores exactly n virtual frames in the caller's buffer and leaves the bytes after them alone.", "quantifier": "every pair of formats, every matrix and mapping, every codec packet size, every number of frames, every file contents", "why_tests_cant": "Formats combine freely and the sizes depend on all of them; an overrun need not crash a test.", "anchors": ["libaudiofile/modules/ModuleState.cpp:setup,arrange", "libaudiofile/modules/SimpleModule.h", "libaudiofile/modules/SimpleModule.cpp:ApplyChannelMatrix", "libaudiofile/modules/FileModule.cpp:bufferSize", "libaudiofile/data.cpp:afReadFrames,afWriteFrames"]}
{"id": "C68", "title": "The layout of the caller's frames", "statement": "The bytes afReadFrames stores are the frames in the virtual format: samples of 1, 2, 4 or 8 bytes (24-bit ones in 4, sign-extended) in the virtual byte order, channel after channel, frame after frame, with the values of the file's samples (read in the file's width, packing and byte order) after conversion; afWriteFrames reads the caller's bytes the same way.", "quantifier": "every pair of formats, every byte order of file, caller and machine, every file contents, every split into pieces of 1024 frames", "why_tests_cant": "All bytes of all combinations of formats.", "anchors": ["libaudiofile/modules/SimpleModule.h", "libaudiofile/modules/ModuleState.cpp:arrange", "libaudiofile/AudioFormat.cpp:bytesPerSample", "libaudiofile/data.cpp:afReadFrames,afWriteFrames"]}
{"id": "C69", "title": "The virtual format can be changed at any time", "statement": "While a file is open for reading, afSetVirtualSampleFormat, ByteOrder, Channels, PCMMapping, afSetTrackPCMMapping and afSetChannelMatrix may be called between reads and seeks: the position does not move, the frame count stays, and the next read delivers the next frames in the format set last, whatever was read or set before.", "quantifier": "every sequence of reads, seeks, queries and format changes, every file, every codec", "why_tests_cant": "Histories are unbounded and the module chain is rebuilt lazily.", "anchors": ["libaudiofile/modules/ModuleState.cpp:setup,reset", "libaudiofile/format.cpp:afSetVirtual*,afSetChannelMatrix,afSeekFrame", "libaudiofile/pcm.cpp:afSetVirtualPCMMapping,afSetTrackPCMMapping", "libaudiofile/data.cpp:afReadFrames"]}
{"id": "C70", "title": "The virtual format can be changed between writes", "statement": "While a file is open for writing, the virtual sample format, byte order, channels, mapping and channel matrix may be changed between writes: the file holds, one after the other, the frames of all writes, each converted from the format in force when it was written; the frame count is the number of frames written.", "quantifier": "every sequence of writes, queries and format changes, every codec", "why_tests_cant": "Histories are unbounded; the module chain is rebuilt in the middle of a block.", "anchors": ["libaudiofile/modules/ModuleState.cpp:setup,sync", "libaudiofile/format.cpp:afSetVirtual*,afSetChannelMatrix,afGetFrameCount", "libaudiofile/data.cpp:afWriteFrames", "libaudiofile/openclose.cpp:afSyncFile,afCloseFile"]}
{"id": "C71", "title": "The bytes written are the bytes read back", "statement": "An application that writes PCM frames in the default virtual format (the file's sample format in the machine's byte order), closes the file, opens it again and reads, gets exactly the bytes it wrote, in every uncompressed format the library writes, whatever the byte order of machine and file, also for 24-bit samples (held in four bytes) and for floating-point samples including NaNs.", "quantifier": "every frame contents, every split into writes, syncs and reads, every channel count, width and byte order, every PCM file format", "why_tests_cant": "All byte contents in all formats, through converters chosen at run time, header patching and buffers of bounded size.", "anchors": ["libaudiofile/data.cpp:afReadFrames,afWriteFrames", "libaudiofile/modules/ModuleState.cpp:arrange", "libaudiofile/modules/SimpleModule.h:SwapModule,Expand3To4Module,Compress4To3Module,ConvertSign", "libaudiofile/modules/PCM.cpp", "libaudiofile/openclose.cpp", "libaudiofile/WAVE.cpp", "libaudiofile/AIFF.cpp"]}
{"id": "C72", "title": "Raw files are what the application says they are", "statement": "Opening any file as raw data with a setup that describes it gives as many frames as fit behind the data offset (or as many as the setup says, if the file has them), and sample c of frame i is the number in the bytes at its place; an offset behind the end is refused. A raw file written and opened again with the same description holds the frames written and nothing else.", "quantifier": "every file contents, every description (sample format, width, channels, byte order, G.711 compression, data offset, frame count), every history of writes and syncs", "why_tests_cant": "All descriptions times all files; the frame size is computed in floating point.", "anchors": ["libaudiofile/Raw.cpp:readInit,writeInit,update", "libaudiofile/util.cpp:_af_format_frame_size", "libaudiofile/units.cpp:_af_compression", "libaudiofile/Setup.cpp:afInitDataOffset,afInitFrameCount"]}
{"id": "C73", "title": "sfconvert copies the whole file or says that it did not", "statement": "Converting a complete input with sfconvert succeeds, and the output holds every frame of the input, in order, converted from the input's format to the output's; with the same sample format in both files no sample changes, whatever the byte orders. Whatever the input, sfconvert says it succeeded only if it read and wrote all frames that were announced; a truncated input is not reported as converted. The copy buffer is never overrun.", "quantifier": "every input file and frame count, every pair of formats and codecs, every byte order, machine and build", "why_tests_cant": "Inputs are unbounded, and the portions of 65536 frames are split again into the library's buffers and blocks.", "anchors": ["sfcommands/sfconvert.c:main,copyaudiodata", "libaudiofile/data.cpp:afReadFrames,afWriteFrames", "libaudiofile/format.cpp:afGetFrameCount,afGetVirtualFrameSize,afSetVirtualChannels,afSetVirtualSampleFormat"]}
{"id": "C74", "title": "A disk that fills up loses nothing that was counted, and the library says so", "statement": "While a file is written the disk may accept any part of each piece of data or refuse it. Whatever it does, no call of afWriteFrames, afSyncFile or afCloseFile goes wrong inside the library, and a call of afWriteFrames returns fewer frames than it was given exactly when an error is reported. If the application then stops, the file holds every frame that was counted, in order and undamaged (for block codecs: every complete block of them), and opened again it delivers them. If pieces are refused whole, writing the uncounted frames again delivers every frame exactly once.", "quantifier": "every sequence of answers of the operating system to write, every split of the frames into calls, every codec, conversion and build", "why_tests_cant": "A test would have to make write fail at each byte of each file; the counting, positions and header must agree for all of them.", "anchors": ["libaudiofile/File.cpp:FilePOSIX::write", "libaudiofile/modules/FileModule.cpp:write,reportWriteError", "libaudiofile/modules/PCM.cpp:runPush,sync2", "libaudiofile/modules/G711.cpp:runPush", "libaudiofile/modules/BlockCodec.cpp:runPush,sync2", "libaudiofile/modules/RebufferModule.cpp:runPush,sync2", "libaudiofile/modules/ModuleState.cpp:sync", "libaudiofile/data.cpp:afWriteFrames", "libaudiofile/openclose.cpp:afSyncFile,afCloseFile"]}
{"id": "C75", "title": "A source that fails while a file is read delivers nothing wrong, and the library says so", "statement": "While a file is read the operating system, or the application's virtual file, may deliver any part of each piece that is asked for, or fail. Whatever it does, a read returns exactly the next frames of the file, all it was asked for unless it reports an error; the position, which afTellFrame tells, moves past the frames returned and no further; no assertion fails and nothing undefined happens, as long as after an error the application seeks to another position before it reads on. Doing so it gets every frame, once the source delivers.", "quantifier": "every sequence of answers of the operating system to read, every history of reads, seeks and tells, every codec, conversion and build", "why_tests_cant": "A test would have to make read fail or fall short at each byte of each file, at each point of each history of calls.", "anchors": ["libaudiofile/File.cpp:FilePOSIX::read,FileVF::read", "libaudiofile/modules/FileModule.cpp:read,reportReadError", "libaudiofile/modules/PCM.cpp:runPull,reset2", "libaudiofile/modules/G711.cpp:runPull,reset2", "libaudiofile/modules/BlockCodec.cpp:runPull,reset1,reset2", "libaudiofile/modules/RebufferModule.cpp:runPull", "libaudiofile/data.cpp:afReadFrames", "libaudiofile/format.cpp:afSeekFrame"]}
{"id": "C76", "title": "Of a file whose end is missing everything that is there is read", "statement": "A file whose header promises more audio data than the file contains (a copy that was interrupted, a partial download) delivers, for every history of reads and seeks that stays within the frames it contains whole (for block codecs: in whole blocks), exactly what the complete file delivers. Beyond that a read returns none but frames of the complete file, in order, reports an error whenever it returns fewer than it was asked for and the header promises, and moves the position past those it returned only; nothing undefined happens as long as after an error the application seeks to another position before it reads on.", "quantifier": "every file, every point at which it is cut off, every history of reads, seeks and tells, every codec, conversion and build", "why_tests_cant": "All points of truncation times all histories; reading works in chunks of 1024 frames and in blocks, and the loops of several modules must agree where the data ends.", "anchors": ["libaudiofile/modules/FileModule.cpp:read,reportReadError", "libaudiofile/modules/PCM.cpp:runPull", "libaudiofile/modules/G711.cpp:runPull", "libaudiofile/modules/BlockCodec.cpp:runPull", "libaudiofile/modules/RebufferModule.cpp:runPull", "libaudiofile/data.cpp:afReadFrames", "libaudiofile/format.cpp:afSeekFrame,afGetFrameCount"]}
{"id": "C77", "title": "Written files conform to their format's layout", "statement": "After any history of writes and syncs that ends with a sync or close, the bytes of the file are laid out as the file format's published description says: the signature, the chunks in order with their sizes, every field at its place in its byte order with the value that the setup, the metadata and the number of frames written call for, the audio data where the header says it is, and nothing after what the header accounts for, so that programs other than this library read them.", "quantifier": "every history of writes and syncs, every setup, every PCM and G.711 encoding (AIFF-C: also IMA ADPCM), every metadata, every format the library writes", "why_tests_cant": "A round trip through the library's own reader accepts any layout on which reader and writer agree; sizes and counts are patched after the data, for unbounded lengths.", "anchors": ["libaudiofile/CAF.cpp:writeInit,writeDescription,update", "libaudiofile/NeXT.cpp:writeHeader", "libaudiofile/AVR.cpp:writeInit,update", "libaudiofile/IRCAM.cpp:writeInit", "libaudiofile/VOC.cpp:writeInit,writeSoundData,writeTerminator", "libaudiofile/SampleVision.cpp:writeInit,writeTrailer", "libaudiofile/NIST.cpp:writeHeader", "libaudiofile/IFF.cpp:writeVHDR,writeBODY,update", "libaudiofile/AIFF.cpp:writeCOMM,writeMARK,writeINST,writeSSND,update", "libaudiofile/WAVE.cpp:writeFormat,writeFrameCount,writeData,writeCues,update"]}
{"id": "C78", "title": "Refused calls have no effect, and settings are reported as they were made", "statement": "A call on an open file with a null handle, a track the file does not have, of the kind the file was not opened for, or with an unknown byte order, sample format, sample width or a negative rate answers with its failure value and changes nothing: every other call answers as if it had not been made. The functions that report the formats of the file and of the application (channels, byte order, rate, sample format and width, PCM mapping) report at any time what the last accepted call set, or what was there when the file was opened.", "quantifier": "every history of calls with every argument, on files opened for reading and for writing, every codec and build", "why_tests_cant": "All interleavings of accepted and refused calls with arbitrary arguments; a setter that changes something before it refuses shows only in later calls.", "anchors": ["libaudiofile/format.cpp:afSetVirtual*,afGet*,afSeekFrame,afTellFrame,afGetFrameCount", "libaudiofile/data.cpp:afReadFrames,afWriteFrames", "libaudiofile/pcm.cpp:afSetVirtualPCMMapping,afSetTrackPCMMapping,afGetPCMMapping,afGetVirtualPCMMapping", "libaudiofile/FileHandle.cpp:getTrack,checkCanRead,checkCanWrite", "libaudiofile/util.cpp:_af_filehandle_ok,_af_set_sample_format", "libaudiofile/openclose.cpp:afSyncFile"]}
{"id": "C79", "title": "The frame sizes reported are the sizes of the frames", "statement": "After any history of calls afGetVirtualFrameSize (stretched) reports the bytes a frame takes in the application's memory in the virtual format then in force: a buffer of n times that size is filled exactly, to its last byte and no further, by a read of n frames, and a write of n frames reads nothing beyond it. afGetFrameSize (not stretched) reports the bytes a frame takes in the file.", "quantifier": "every history of calls, every sample format, width, byte order and channel count, every conversion and buffer contents", "why_tests_cant": "An application allocates its buffers from these numbers; a size that is too small for one of the countless virtual formats is a heap overflow, which a test sees only for the formats it tries.", "anchors": ["libaudiofile/format.cpp:afGetFrameSize,afGetVirtualFrameSize", "libaudiofile/util.cpp:_af_format_frame_size,_af_format_frame_size_uncompressed,_af_format_sample_size_uncompressed", "libaudiofile/units.cpp:squishFactor", "libaudiofile/AudioFormat.cpp:bytesPerSample,bytesPerFrame", "libaudiofile/data.cpp:afReadFrames,afWriteFrames"]}
{"id": "C80", "title": "AES channel status data are kept as they were stored", "statement": "A file opened for writing has AES data in exactly the tracks for which the setup last asked for it; afGetAESChannelData answers 1 with the 24 bytes last stored by afSetAESChannelData while the file is open for writing (zeros before), 0 with zeros for a track without AES data and -1 for a track that does not exist; storing into such a track, or into a file open for reading, changes nothing. An AIFF or AIFF-C file that is written and opened again has the bytes last stored, and no AES data if none were asked for, with its audio data unchanged.", "quantifier": "every history of calls on the setup and on the file, every 24 bytes, every history of writes and syncs, every other metadata", "why_tests_cant": "All interleavings of stores into several tracks with writing and syncing; the chunk is overwritten in place at each update.", "anchors": ["libaudiofile/aes.cpp:afInitAESChannelData,afInitAESChannelDataTo,afGetAESChannelData,afSetAESChannelData", "libaudiofile/AIFF.cpp:parseAESD,writeAESD", "libaudiofile/FileHandle.cpp:copyTracksFromSetup", "libaudiofile/Track.cpp:Track"]}
