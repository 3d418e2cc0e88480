STATUS={"C75":"proved","C76":"proved"}
NOTES={
"C04":"False of the code: samples -7..-1 encode to the code of -248 (C04_alaw_monotone_refuted, C04_alaw_small_negative_samples). Monotonicity and the error bound are proved for all other 16-bit samples.",
"C06":"8, 16, 24 bits proved. At 32 bits signed->unsigned computes x - INT32_MIN in int: signed overflow for every x >= 0 (C06_sign_conversion_32_refuted).",
"C09":"Integer samples; limits are integers after conversion to the sample type.",
"C10":"Independence theorems are over arbitrary sample/matrix arithmetic; product theorems over the built-in matrices, whose arithmetic is exact in double. A matrix is not applied when both channel counts are equal (_refuted).",
"C11":"False for 4->1 and 4->2 (sum of full-scale channels leaves the range, an undefined double->int conversion); proved for every other channel pair.",
"C15":"False: the step index comes from the block header unchecked (WAVE byte 2 may be 89..255, QuickTime low 7 bits may be 89..127): table read out of bounds. Proved safe when the header indices are at most 88.",
"C16":"False of the code: WAVE IMA blocks are delayed by one frame and the last frame of every block is never encoded (proved for all blocks).",
"C17":"Any coefficient table with |c1|+|c2| <= 768 (the library's own table satisfies it) and blocks of at least 6 (mono) / 5 (stereo) frames.",
"C19":"False: from the header step 65535 codes 8 triple the step until delta*768 overflows int; a predictor index outside the table fails an assertion (or reads an unset table entry when assertions are off). Proved defined while the step is at most 2796202 (always for the first four samples of a channel).",
"C22":"Proved for PCM, G.711 and MS ADPCM with any number of syncs separated by writes (PCM files below 2 GiB). False for IMA ADPCM (encoder state is not restored: the audio changes) and for two syncs in a row (assertion failure, or in release builds a partial block written over the header), and for ALAC (C22_alac_sync_refuted: the packet table keeps the partial packet, the file re-opens without frames).",
"C24":"All seven codec configurations, any conversion, any splitting.",
"C27":"PCM keeps the position in a C int across a sync: proved below 2 GiB, refuted for every PCM file at or beyond it; G.711 and block codecs unlimited.",
"C51":"Frame counts and data size after writing; after syncing a partial block repeatedly the recorded data size is too large (C51_data_size_after_sync_refuted).",
"C53":"Bytes of the synced frames (complete blocks for block codecs) and of the header area survive any crash image of later writes. Whole files opened again after any crash image: NeXT, AVR, NIST, 8SVX, AIFF/AIFF-C and WAVE with PCM (and G.711 where the format has it) open with exactly the format, frame count, metadata and frames of the last sync. CAF killed at any moment before the first sync opens with every complete frame that is on the disk (PropertiesCAFOpen). Refuted by example for CAF and VOC after a sync (later audio is parsed as chunks/blocks and the file is rejected). IRCAM and headerless files open with AT LEAST the synced frames, exactly as they were (C53_ircam_*/C53_raw_* in PropertiesCrashOpen: the frame count comes from the file length, so complete frames that reached the disk after the sync follow; that they open with EXACTLY the synced frames is refuted by example); Sample Vision (the rate is stored after the audio and overwritten), and for the last incomplete block of a block codec (torn block).",
"C55":"PCM and G.711 for any history of writes and syncs; ADPCM and ALAC for writes followed by one sync (see C22).",
"C56":"Proved for fixed-size codecs and for block codecs once a complete block was written; refuted for shorter block-codec files (heap contents are encoded into the file).",
"C23":"Proved for every file whose audio data is complete and every history of calls; false when the data is truncated (counterexamples _refuted: frames lost, then an assertion failure or invented frames) and for unseekable streams read through a conversion.",
"C25":"Proved for nonempty files; in a file without frames seeking forward reports frame -1 (C25_seek_in_an_empty_file_refuted).",
"C28":"PCM of 8-32 bits, float and double bit patterns (below 2 GiB) and G.711 (below 4 GiB) for any nonempty history of writes and syncs. False for empty files (24-byte file, data offset 28: 2147483646 frames reported) and for data of 4 GiB and more.",
"C57":"For each of the ten formats: conditions on the bytes of the file under which opening it is defined in Debug and Release builds (fields that are used are in the file, products fit an int, each chunk leads on), and refutations showing that opening other files is not defined: header cut short, missing format chunk, overflowing products, lists longer than the file.",
"C29":"PCM of 8 and 16 bits, signed or unsigned, one or two channels, below 2 GiB, sample rates below 2^24 Hz, for any nonempty or empty history of writes and syncs. False beyond: more than two channels are recorded as stereo; higher rates lose their high byte.",
"C39":"Every table of nonzero 32-bit sizes; a zero size ends the table on reading (C39_zero_size_refuted). Reading any table is in bounds and terminates.",
"C58":"Proved when the packet table holds a packet for the frame; the library does not check the table against the frame count or the frames per packet (C58_alac_seek_refuted).",
"C41":"Every finite double, incl. denormals and negative numbers, and the special values (-0 reads back as +0, NaN as infinity). Over the C binary64 arithmetic of Coq.Floats.SpecFloat.",
"C52":"Integers of up to 24 bits through float and double, signed 32-bit integers through double; floats to integers for every non-NaN value. Refuted: NaN samples (undefined conversion), 32-bit integers through float. Unsigned 32-bit: see C06.",
"C59":"All format pairs and mappings; for 32-bit formats building the chain overflows int by the letter of the standard (C59_arrange_32_refuted), proved for compilers where negation wraps.",
"C43":"Every history of writes, reads and non-negative seeks. False for negative seek offsets: accepted, and the next transfer is outside the buffer (C43_negative_seek_refuted).",
"C44":"Every handle state and every history of metadata calls. If the setup repeats an id (see C48) the query finds the first marker with it.",
"C45":"Every handle state and every history of metadata calls.",
"C46":"Every handle state and history, integer parameters of AIFF, AIFF-C and WAVE (the only formats with instrument parameters).",
"C47":"Every list size and history of calls; with assertions on, a bad index ends the program instead of returning an error code.",
"C48":"Holds for instruments and loops. False for markers and miscellaneous chunks (never checked) and, when assertions are off, for tracks.",
"C54":"C54_listed_compression_is_accepted and its neighbours (PropertiesQuerySetup) compare the tables of the queries with what file setups are accepted: default sample formats, compressions, markers, instruments; NIST files get compressions that are not listed (_refuted). All queries except marker queries (C54_queries_in_bounds_partial), plus consistency of the answers; marker queries with a file format outside 0..16 (such as AF_FILE_UNKNOWN) read outside the table, and a build without FLAC still lists the FLAC format as implemented.",
"C30":"Whole sample rates below 65536 (all the header can hold), any interleaving of writes and syncs, miscellaneous data of the four IFF kinds. False: empty miscellaneous chunks are dropped on reading; other kinds are accepted and written under a zero tag.",
"C36":"PCM of 1-32 bits, float and double bit patterns (below 2 GiB), G.711 (AIFF-C), and IMA ADPCM (AIFF-C; the frames of whole packets), with markers, AES data, the instrument and miscellaneous data. False: IMA frame counts are rounded down to a multiple of 64; empty miscellaneous chunks are dropped on reading.",
"C38":"VOC: every file. AIFF, IFF, CAF, WAVE: proved for every file whose chunks do not send the offset backwards; false for chunk sizes near 2^32 (AIFF, IFF, WAVE) and a chunk length of -12 (CAF), for which the reader returns to the same chunk forever (_refuted).",
"C42":"Proved for strings of up to 255 bytes at any position.",
"C31":"All sample formats (PCM below 2 GiB, G.711 of any length), 1, 2 or 4 channels, rates that are floats. False: a byte order other than the machine's is accepted but not recorded (samples read back byte-swapped); other rates are rounded to float.",
"C32":"8-bit unsigned and 16-bit signed PCM and G.711, up to 255 channels, up to 2^24 - 13 bytes of audio. False beyond: the 24-bit block size wraps, 256 channels are stored as 0 and the file cannot be opened.",
"C33":"Mono files below 2 GiB. False for more channels (accepted, read back as mono with a wrong rate); every file reads back with a name and comment of one blank.",
"C34":"PCM of 9-16 bits in either byte order and G.711, up to 2^31 bytes, whole sample rates. False: PCM of 8 bits or fewer is written but opens as u-law; frame counts of 2^31 and more wrap.",
"C37":"PCM of 8-32 bits, float and double bit patterns in either byte order, G.711, and IMA ADPCM (what was written plus what completes the last packet), and ALAC (writes, then close; configuration, packet table and audio; two channels if the packet buffer is large enough, see C66). False: IMA frame counts are rounded up to a multiple of 64.",
"C35":"PCM of whole bytes, float and double bit patterns (below 2 GiB), G.711, IMA ADPCM (up to 255 channels) and Microsoft ADPCM (mono, stereo), with markers (different ids) and miscellaneous data. False: widths that are not whole bytes re-open rounded up; byte rates of 2^32 and more or frames of 64 KiB and more are undefined conversions; IMA with 256 or more channels; equal marker ids lose names; instruments are not kept.",
"C50":"Identification is exact (a file is identified as a format exactly if it carries its marks, at any file position), and files of all ten header formats keep their marks through every history of writes and syncs, closed or not, with every codec modelled (all but FLAC and ALAC). Restricted to PCM below 2 GiB: beyond, a sync followed by a write can destroy the header (_refuted).",
"C60":"AIFF, IFF, VOC, IRCAM, AVR, NIST, Sample Vision: every file. NeXT, CAF, WAVE: the theorem names the only ways to fail (channel counts of 2^31 and more come out negative; ALAC and ADPCM packets of no frames), each shown to happen (_refuted). A WAVE IMA block too small for its frames is also accepted, and decoding it reads outside the block.",
"C61":"IRCAM of all machine variants, NeXT with given and unknown sizes, old and extended VOC blocks, AIFF-C compression types and AIFF with other chunks, WAVE format codes, CAF format ids, flags, packet tables and audio data whose length is -1 (to the end of the file), each against a separate description of the bytes another program writes.",
"C49":"Both directions against a separate table: what is accepted fits the file format, and everything in the table is accepted as asked. Restricted to channel counts and rates the header can hold (most formats do not check them, _refuted), codecs without parameters in raw files and more than 8 bits for NIST with G.711 (_refuted). FLAC is not modelled.",
"C62":"Proved for every sequence of setup calls. Full-scale frames: false for an IFF file opened without a sample format, whose 8-bit frames are mapped and clipped as 16-bit ones (undefined behaviour). Unchanged frames: signed integers and floating point, no compression.",
"C63":"The same file format again: proved (the file's format is the same; the virtual format too if the sample format was not replaced). Another file format: false, completeSetup writes into the caller's setup (_refuted).",
"C64":"Codec (search, predictor, Golomb coder, mixing, elements) and the packet loop of modules/ALAC.cpp, for everything the encoder has written in whatever buffer. Signed overflow in the predictor wraps (Arith := Wrapping), as machine arithmetic does; the C standard leaves it undefined.",
"C65":"Termination: proved for every packet and configuration. Memory safety: false, the decoder trusts the number of samples and of shifted bytes in the packet (_refuted).",
"C66":"Every depth and channel count except two channels at 16, 24 or 32 bits, where the encoder's first attempt may need more bits than the buffer has; six bytes per sample are proved to be enough in all cases.",
"C67":"Pieces of up to 1024 frames through every chain of converters, fewer than 2^18 channels, contents for which the conversions are defined. False: after a seek into a packet the frames before the position are pulled in one piece, which can exceed the buffers (ALAC read as float, _refuted); with 2^20 channels the buffer size wraps to nothing (_refuted). The codecs' own accesses are C15, C19, C60, C65, C66.",
"C68":"Every pair of formats, byte orders and channel matrices. False for 24-bit virtual samples in the byte order that is not the machine's: the swap takes them for 3 bytes wide (_refuted). NaN payloads are not modelled: a NaN is any NaN.",
"C69":"Any sequence of calls on files of fewer than 2^48 frames at a usual rate. False: a matrix set after the chain was built is not used until something else rebuilds it; a virtual rate other than the file's changes the frame count but resamples nothing (both _refuted).",
"C70":"Library codecs, whole-number rates with frames * rate below 2^53, no sync before the last one (C22 is about those). What completes the last block after a format change is whatever the new buffer held, and is left open. False: at a fractional rate the frame count is truncated after a format change (7 frames reported as 6); a matrix set after the chain was built is not used until something else rebuilds it (both _refuted).",
"C71":"C71_converters_carry_bytes covers every PCM format at full scale except unsigned 32-bit samples, whose conversion overflows (C06). The theorems per file format carry the limits of C28 to C37 (files below 2 GiB, what each header can express). The fourth byte of a 24-bit sample must be its sign extension: other values are not stored (_refuted).",
"C72":"PCM of any width and G.711, frames below 2^24 bytes, files written below 2 GiB. False: with IMA or MS ADPCM of one 16-bit channel opening divides by zero; the frame count of the setup is never compared with the file; frames of 2^24+1 bytes are mis-sized (float); a file with a data offset and no frames cannot be opened again (_refuted).",
"C73":"The program from the moment both files are open (the command line and the choice of formats are not modelled; the result of closing is ignored by the program and in the model). Frames below 32768 bytes, whole-number rates. C73_success_means_complete is about any input and any codec; C73_truncated_input_fails about PCM and G.711 inputs; C73_to_next_partial follows signed PCM through to opening the output as a NeXT file, and C73_to_wave/aiff/caf/next_file/avr_file/voc_file/iff_file/ircam_file/samplevision_file/nist_file_partial do the same for each of these formats (WAVE, AIFF, AIFF-C and IFF with any valid metadata). False: with frames of 32768 bytes or more the size of the copy buffer overflows int (_refuted).",
"C74":"Writes of audio data can fail in any way; those of the header, over bytes already in the file, succeed (a failed header write is ignored by the library). Opened again: proved for NeXT PCM. False: frames of a piece that was taken in part are doubled, or later frames shifted, if the application writes the uncounted frames again; for IMA and MS ADPCM frames counted while their block was incomplete are lost when the block cannot be written, and afSyncFile and afCloseFile then return success (_refuted).",
"C75":"Failures while audio data is read (the header is read from a source that delivers). The chain of conversions is a function on frames and there is one sample rate, as in C23. False without the seek: the next read delivers PCM frames from the wrong bytes, counts frames that were never read, or fails an assertion in a block codec; none reports an error, and a seek to the current position does nothing (_refuted).",
"C76":"The audio data is cut off, not the header. The first theorem reduces a cut file to the complete one with read(2) answering short (Faults.v); the second says that the missing part does not matter for calls that stay within the rest. What happens without a seek after the error is C23_truncated_file_refuted, C23_truncated_blocks_refuted and the refutations of C75.",
"C77":"Each layout is written down from the published description, without the model's writers, and holds for every history that ends with a sync. AIFF and WAVE are partial: after an odd number of bytes of audio there is no pad byte and the file has an odd length (_refuted); AIFF-C's frame count of IMA data is rounded down to whole packets (C36). Stated as the library writes them, although the descriptions say otherwise: WAVE G.711 has the IBM tags 257 and 258, 8SVX says 0 octaves, NIST single-byte files have the byte format 0.",
"C78":"The calls of Virtual.v and VirtualWrite.v with the arguments C passes. C78_every_answer_while_reading describes every answer of every history on a file opened for reading (under the conditions of C69). Handles whose file was closed are not modelled (freed memory). False: the number of virtual channels is not checked, 0 and negative numbers are accepted (_refuted).",
"C80":"The history theorems are complete. The round trip is for PCM (C36's conditions: the header's sizes stay below 2^31; the other metadata valid and of unchanged layout); the stores are those made before the last update of the header, as the theorem of C36 has the metadata of the closing file.",
"C79":"The size is a float in C: exact below 2^24 bytes, which the theorems require; above that it can be too small, and an absurd number of virtual channels overflows an int (_refuted). For ADPCM the file's frame size leaves out the packet headers (_refuted). The memory theorems are C68's (fewer than 2^18 channels, 24-bit samples in native order).",
}
