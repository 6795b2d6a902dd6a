{"id": "C01", "title": "IIIF region parameter: exact accepted language and meaning", "statement": "Parsing a IIIF region string succeeds with Full exactly for \"full\", with Square exactly for \"square\", with Absolute{x,y,w,h} exactly for four comma-separated unsigned decimal literals (an optional leading + is allowed) that fit in 32 bits and have w>0 and h>0, and with Percentage exactly for \"pct:\" followed by four comma-separated float literals that round to values greater than zero; the numbers in the result are the numbers written.", "quantifier": "every byte string given as region", "why_tests_cant": "The input space is all strings; a test samples a few literals and cannot exclude an accepted malformed string or a misread valid one.", "anchors": ["src/iiif/parse.rs: impl FromStr for Region, parse_region_selectors, impl RegionSelector"]}
{"id": "C02", "title": "IIIF region parameter: error pinpoints the first offending selector", "statement": "When a region string is rejected, the reported error names the first selector (in the order x, y, width, height) that is unparsable or out of bounds, or, when all the selectors present (up to four) are fine, reports that the number of selectors is not four; the parser never panics.", "quantifier": "every rejected region string", "why_tests_cant": "Needs the precedence of all combinations of faults over unbounded strings.", "anchors": ["src/iiif/parse.rs: parse_region_selectors, selector_name, ParseError"]}
{"id": "C03", "title": "IIIF size parameter: exact accepted language and meaning", "statement": "Parsing a IIIF size string yields exactly the forms max, w, ,h w,h pct:n !w,h each optionally prefixed by ^ (upscale), with every pixel dimension a nonzero 32-bit unsigned literal; the result carries exactly the written values and upscale=true iff ^ was written; everything else is rejected.", "quantifier": "every byte string given as size", "why_tests_cant": "Unbounded string space; unit tests cover a handful of literals.", "anchors": ["src/iiif/parse.rs: impl FromStr for Size, parse_scale_percent, parse_scale_px"]}
{"id": "C04", "title": "Percentage sizes never request upscaling unless ^ is given, up to binary32 rounding", "statement": "pct:n without ^ is accepted exactly when the decimal value n, rounded to the nearest binary32 (ties to even), lies in (0,100]; i.e. exactly when 2^-150 < n <= 100 + 2^-18. With ^ it is accepted exactly when the rounded value is positive, infinity included.", "quantifier": "every float literal of any length", "why_tests_cant": "The boundary is at a rounding tie; the set of decimal literals is infinite.", "anchors": ["src/iiif/parse.rs: parse_scale_percent"]}
{"id": "C05", "title": "IIIF rotation parameter: exact accepted language", "statement": "A rotation string is accepted exactly when it is an optional ! followed by a float literal whose nearest binary32 lies between 0 and 360 inclusive; mirror is set iff ! is written and the angle is that binary32 value.", "quantifier": "every byte string given as rotation", "why_tests_cant": "Unbounded strings, rounding at 360, signed zero and NaN/infinity cases.", "anchors": ["src/iiif/parse.rs: impl FromStr for Rotation"]}
{"id": "C06", "title": "IIIF quality and format names are a bijection with the enumerations", "statement": "Exactly the documented lower-case quality and format names are accepted, each mapping to a distinct value, and each format has a distinct media type.", "quantifier": "every byte string given as quality or format", "why_tests_cant": "Exclusion of every other string is a universal statement.", "anchors": ["src/iiif/parse.rs: impl FromStr for Quality, impl FromStr for Format", "src/iiif.rs: Format::mime"]}
{"id": "C07", "title": "A canonical IIIF image URI decodes to the request it denotes (debug build)", "statement": "For every identifier (any UTF-8 string), region, size, rotation, quality and format, the path /{percent-encoded identifier}/{region}/{size}/{rotation}/{quality}.{format} decodes to exactly that request in a build with debug assertions.", "quantifier": "every identifier and every well-formed parameter value", "why_tests_cant": "Infinite product of identifiers and parameters, including identifiers containing slash, percent, dot, comma and non-ASCII text.", "anchors": ["src/http.rs: decode_image_request"]}
{"id": "C08", "title": "Release and debug builds decode the same request", "statement": "The decoded request for a path does not depend on whether debug assertions are compiled in. (False: the assertion consumes the leading empty segment, so in release every canonical IIIF URI is rejected and shifted paths are accepted.)", "quantifier": "every request path, both build modes", "why_tests_cant": "Unit tests run in debug mode only, so they cannot see the release behaviour at all.", "anchors": ["src/http.rs: decode_image_request (debug_assert! with side effect)"]}
{"id": "C09", "title": "Percent-decoding of identifiers", "statement": "The identifier handed to the image source is the percent-decoding of the URI segment, decoded once; percent-encoding any UTF-8 string and decoding it gives the string back; a segment whose decoded bytes are not UTF-8 is refused; a segment without % is passed unchanged.", "quantifier": "every identifier segment", "why_tests_cant": "Infinite input space, including malformed escapes and multi-byte sequences cut in the middle.", "anchors": ["src/http.rs: decode_image_request (urlencoding::decode)"]}
{"id": "C10", "title": "Every HTTP request is answered", "statement": "For every method and path the handler returns a response: 404 for non-GET or non-slash paths, 400 with the error text for a bad IIIF request, 400 for an unopenable image, 200 otherwise. (False for GET paths ending in info.json, where the handler panics; proved for all others.)", "quantifier": "every method, every path, every outcome of the image source", "why_tests_cant": "Universal over paths; the panic is only reached for a suffix pattern.", "anchors": ["src/http.rs: handle_request, image_request, info_request"]}
{"id": "C11", "title": "Only files under the configured image directory are opened", "statement": "The path opened for an identifier stays lexically inside the configured directory. (False: %2F-encoded absolute paths and .. components escape; proved for identifiers that are relative and have no .. component.)", "quantifier": "every identifier obtainable from a URI", "why_tests_cant": "Requires ranging over every encoded identifier; tests show only benign ones.", "anchors": ["src/resolve.rs: DiskImageSource::resolve", "src/http.rs: decode_image_request"]}
{"id": "C12", "title": "Response bodies are delivered exactly once", "statement": "Polling a response body any number of times yields the whole body in the first data frame and end-of-stream for ever after.", "quantifier": "every body and every poll sequence", "why_tests_cant": "Poll histories are unbounded.", "anchors": ["src/lib.rs: ResponseBody::poll_frame"]}
{"id": "C13", "title": "Connection limit", "statement": "Whatever the interleaving of accepts, permit grants and connection ends, at most max_connections connections are being served at once, no permit is lost, and a waiting connection is only kept waiting while all permits are in use.", "quantifier": "every interleaving of accept / acquire / finish events", "why_tests_cant": "Schedules are unbounded; a test sees one.", "anchors": ["src/lib.rs: serve_http2"]}
{"id": "C14", "title": "Read failures on the connection are reported to HTTP", "statement": "A read error on the underlying stream is reported to the HTTP layer. (False: it is turned into a successful empty read, indistinguishable from end of stream.)", "quantifier": "every sequence of transport read outcomes", "why_tests_cant": "Error injection at every point of every stream.", "anchors": ["src/lib.rs: HyperStream::poll_read"]}
{"id": "C15", "title": "Packet-header bit I/O round trip", "statement": "Writing any sequence of bit fields through the bit writer and flushing produces bytes from which the bit reader returns the same fields in order, and after inalign the reader has consumed exactly the bytes written.", "quantifier": "every finite sequence of (value,width) writes", "why_tests_cant": "Unbounded sequences; bit stuffing depends on the data.", "anchors": ["openjp2-rs/src/bio.rs: opj_bio_write, opj_bio_read, opj_bio_flush, opj_bio_inalign"]}
{"id": "C16", "title": "Bit-stuffed header bytes never emulate a marker", "statement": "In the output of the bit writer every byte 0xFF is followed by a byte whose top bit is zero, and after a flush the last byte is never 0xFF, so no marker code (0xFF90 or above) can appear in packet headers.", "quantifier": "every finite sequence of writes", "why_tests_cant": "Needs all data patterns.", "anchors": ["openjp2-rs/src/bio.rs: opj_bio_byteout, opj_bio_flush"]}
{"id": "C17", "title": "Bit writer never leaves its buffer and reports overflow", "statement": "Whatever is written, the writer stores bytes only inside the given buffer, and a successful flush implies that every bit written is in the buffer.", "quantifier": "every buffer length and write sequence", "why_tests_cant": "Needs all overflow positions.", "anchors": ["openjp2-rs/src/bio.rs: opj_bio_putbit, opj_bio_byteout, opj_bio_flush"]}
{"id": "C18", "title": "Tag-tree round trip", "statement": "Encoding any sequence of (leaf, threshold) queries over a tag tree of any dimensions with any leaf values, and decoding the bits with the same queries over an initially blank tree, returns for every query exactly whether the leaf value is below the threshold, with decoder and encoder consuming/producing the same number of bits.", "quantifier": "every tree size, leaf values and query sequence", "why_tests_cant": "Tree shape, values and query history are unbounded.", "anchors": ["openjp2-rs/src/tgt.rs: TagTree"]}
{"id": "C19", "title": "Packet-header codes for comma codes and pass counts round trip", "statement": "The comma code round-trips every number and the coding-pass count code round-trips exactly 1..164 passes.", "quantifier": "every number", "why_tests_cant": "Ranges over all naturals and all bit-level contexts.", "anchors": ["openjp2-rs/src/t2.rs: opj_t2_putcommacode, opj_t2_getcommacode, opj_t2_putnumpasses, opj_t2_getnumpasses"]}
{"id": "C20", "title": "Packet header round trip", "statement": "For every packet (any layer of any precinct) the header written by the encoder is parsed by the decoder into the same inclusion flags, zero bit-plane counts, pass counts and segment lengths.", "quantifier": "every packet contents and every layer history", "why_tests_cant": "State carries over between layers; unbounded histories.", "anchors": ["openjp2-rs/src/t2.rs: opj_t2_encode_packet, opj_t2_read_packet_header"]}
{"id": "C21", "title": "MQ arithmetic coder round trip", "statement": "Decoding the bytes produced by the MQ encoder with the same context sequence returns the encoded decisions.", "quantifier": "every sequence of (context, decision) pairs", "why_tests_cant": "Carry propagation and byte stuffing depend on the whole history.", "anchors": ["openjp2-rs/src/mqc.rs: encode, flush, init_dec, decode"]}
{"id": "C22", "title": "MQ output is marker-free", "statement": "A byte 0xFF in MQ-coded output is always followed by a byte below 0x90.", "quantifier": "every sequence of decisions", "why_tests_cant": "Depends on carries over unbounded histories.", "anchors": ["openjp2-rs/src/mqc.rs: byteout, setbits, flush"]}
{"id": "C23", "title": "Reversible colour transform is lossless", "statement": "Applying the reversible component transform and its inverse restores every triple of samples of up to 30 bits, and no intermediate overflows. (For arbitrary 32-bit values under wrapping arithmetic this is false; a witness is given.)", "quantifier": "every triple of sample arrays", "why_tests_cant": "2^96 inputs per pixel.", "anchors": ["openjp2-rs/src/mct.rs: opj_mct_encode, opj_mct_decode"]}
{"id": "C24", "title": "5/3 wavelet is lossless in one dimension", "statement": "The inverse 5/3 transform applied to the forward transform of any row or column of samples below 2^30 in magnitude restores it, for every length from 1 and both parities of the start coordinate, and the coefficients are those of the standard's lifting equations on the symmetrically extended signal. (For samples of full 32-bit range this is false; a witness is given.)", "quantifier": "every signal, length and parity", "why_tests_cant": "Unbounded lengths and boundary cases.", "anchors": ["openjp2-rs/src/dwt.rs: opj_dwt_encode_and_deinterleave_h_one_row, opj_dwt_encode_1, decode_1, opj_dwt_interleave_h"]}
{"id": "C25", "title": "5/3 wavelet is lossless on whole tile components", "statement": "The multi-resolution inverse 5/3 transform restores every tile component transformed by the multi-resolution forward transform, for every tile rectangle and number of resolutions in which no resolution has zero width, non-zero height and an odd first column, and samples leaving room for growth by 4 per level. (With such a resolution the claim is false; a witness is given.)", "quantifier": "every tile rectangle, resolution count and samples", "why_tests_cant": "Unbounded sizes and depth.", "anchors": ["openjp2-rs/src/dwt.rs: opj_dwt_encode_procedure, opj_dwt_decode_tile"]}
{"id": "C26", "title": "Sparse array behaves as a plain two-dimensional array", "statement": "After any sequence of region writes, a region read returns for each cell the last value written there or zero; reads and writes outside the array are refused and change nothing.", "quantifier": "every array and block size and every history of reads/writes", "why_tests_cant": "Histories and block alignments are unbounded.", "anchors": ["openjp2-rs/src/sparse_array.rs"]}
{"id": "C27", "title": "Packet iterator visits each packet exactly once in the declared progression order", "statement": "For each of the five progression orders, iterating over a tile yields every (layer, resolution, component, precinct) packet of the tile exactly once, ordered by the declared progression.", "quantifier": "every tile geometry, component count, resolution count and precinct sizes", "why_tests_cant": "Unbounded geometry.", "anchors": ["openjp2-rs/src/pi.rs: opj_pi_next, opj_pi_next_lrcp, opj_pi_next_rlcp, opj_pi_next_rpcl, opj_pi_next_pcrl, opj_pi_next_cprl"]}
{"id": "C28", "title": "Tiles partition the image area", "statement": "For a size header accepted by the decoder with extents below 2^31, every tile is set up and is not empty, every image position belongs to exactly one tile of the grid, and the tiles' component rectangles partition each subsampled component. (With an extent of 2^31 or more the header is accepted but a tile is refused.)", "quantifier": "every image and tile geometry", "why_tests_cant": "Unbounded geometry and subsampling.", "anchors": ["openjp2-rs/src/tcd.rs: opj_tcd_init_tile", "openjp2-rs/src/j2k.rs: opj_j2k_get_tile_dimensions, opj_j2k_update_image_dimensions"]}
{"id": "C29", "title": "Integer geometry helpers", "statement": "Ceiling division helpers compute the mathematical ceiling for all arguments in range (the signed general division only for non-negative numerators), and rounding by stages (component subsampling then resolution level) agrees with a single ceiling division.", "quantifier": "all 32-bit arguments", "why_tests_cant": "2^64 argument pairs.", "anchors": ["openjp2-rs/src/math.rs", "openjp2-rs/src/pi.rs: opj_uint_ceildivpow2"]}
{"id": "C30", "title": "Big-endian integers in code streams round trip", "statement": "Writing any value in n bytes and reading n bytes back yields the value modulo 2^(8n), for n = 1..4, whatever surrounds it.", "quantifier": "every value and width", "why_tests_cant": "All 32-bit values.", "anchors": ["openjp2-rs/src/cio.rs: opj_write_bytes_BE, opj_read_bytes_BE"]}
{"id": "C31", "title": "Code-stream main-header marker segments round trip", "statement": "SIZ, COD, COC, QCD, QCC, POC and SOT marker segments written by the encoder are read back by the decoder as the same parameters.", "quantifier": "every valid parameter set", "why_tests_cant": "Product space of many fields.", "anchors": ["openjp2-rs/src/j2k.rs: opj_j2k_write_siz, opj_j2k_read_siz, opj_j2k_write_cod, opj_j2k_read_cod, opj_j2k_write_qcd, opj_j2k_read_qcd, opj_j2k_write_poc, opj_j2k_read_poc, opj_j2k_write_sot, opj_j2k_get_sot_values"]}
{"id": "C32", "title": "A JP2 file is laid out as in Annex I and read back", "statement": "The file written for an image has the signature, file type, header (image header, bits per component, colour specification, channel definitions) and code-stream boxes of Annex I byte for byte, and reading it yields the same header fields and the code-stream. (False with the JPIP index, which leaves a hole the reader takes for the last box, and for code-streams of 2^32-8 bytes or more, whose box length wraps.)", "quantifier": "every image, every code-stream, every header that fits its fields", "why_tests_cant": "A test compares a few files; the layout depends on the number, depths and kinds of components.", "anchors": ["openjp2-rs/src/jp2.rs:1016-1154", "openjp2-rs/src/jp2.rs:1343-1390", "openjp2-rs/src/jp2.rs:1449-1588"]}
{"id": "C33", "title": "Stream reads deliver every byte of the source", "statement": "A read of n bytes returns the next min(n, remaining) bytes and advances the position by that amount, so any history of reads, skips and seeks behaves as a file with a position. (True of histories without short reads. False at end of file: the tail is consumed but reported as zero bytes, and later seeks land at the wrong place.)", "quantifier": "every source and sequence of reads, skips and seeks", "why_tests_cant": "Histories are unbounded; the failure only occurs on short final reads.", "anchors": ["openjp2-rs/src/stream.rs: Stream::read, skip, seek"]}
{"id": "C34", "title": "Matrix inversion for custom component transforms", "statement": "Inverting a regular n x n matrix returns its inverse, and a singular one is refused. (False: the routine never succeeds, for any n; it panics or reports the matrix as singular.)", "quantifier": "every n and every matrix", "why_tests_cant": "Universal over matrices.", "anchors": ["openjp2-rs/src/invert.rs: opj_matrix_inversion_f"]}
{"id": "C35", "title": "Raw (bypass) coding round trip", "statement": "Bits written through the bypass writer and terminated are returned by the raw decoder, and the output never has 0xFF followed by a byte above 0x8F.", "quantifier": "every bit sequence", "why_tests_cant": "Unbounded sequences with data-dependent stuffing.", "anchors": ["openjp2-rs/src/mqc.rs: bypass_enc, bypass_flush_enc, raw_decode"]}
{"id": "C36", "title": "Code-block coding round trip", "statement": "Decoding all segments of an encoded code-block of a reversible band restores its coefficients, for every combination of code-block style flags and whatever else is in memory. (Proved for coefficients of up to 25 bits, and with a region-of-interest shift as long as 30 bits suffice; false for a region of interest with selective bypass, where encoder and decoder disagree on which passes are raw.)", "quantifier": "every code-block size of up to 4096 coefficients, contents, band and style", "why_tests_cant": "Unbounded contents.", "anchors": ["openjp2-rs/src/t1.rs: opj_t1_encode_cblk, opj_t1_decode_cblk"]}
{"id": "C37", "title": "DC level shift is inverted and output is clamped", "statement": "For components of 1 to 31 bits, reversible decoder level shifting undoes encoder level shifting for every sample in range and any shift, every decoded sample lies in the declared range, and the sum saturates as long as it fits in 32 bits (beyond, it wraps: a coefficient near 2^31 comes out as 0 instead of the maximum). On the irreversible path the result is the nearest integer (ties to even) plus the shift, saturated, for every float including NaN and infinities, and samples of up to 24 bits are restored. Both walks touch exactly the visible samples.", "quantifier": "every sample value, precision and signedness", "why_tests_cant": "All values and precisions.", "anchors": ["openjp2-rs/src/tcd.rs: opj_tcd_dc_level_shift_encode, opj_tcd_dc_level_shift_decode"]}
{"id": "C38", "title": "Code-blocks partition each sub-band", "statement": "The code-blocks of the precincts of a band are disjoint rectangles that together cover the band exactly.", "quantifier": "every tile/band geometry and code-block/precinct size", "why_tests_cant": "Unbounded geometry.", "anchors": ["openjp2-rs/src/tcd.rs: opj_tcd_init_tile"]}
{"id": "C39", "title": "Accepted but unserved connections are bounded", "statement": "The number of connections the server holds open is bounded by the connection limit. (False: the permit is acquired inside the spawned task, so accepting is never throttled and any number of connections can wait.)", "quantifier": "every connection limit and every number of clients", "why_tests_cant": "Needs unbounded arrival histories.", "anchors": ["src/lib.rs: serve_http2"]}
{"id": "C40", "title": "One bad connection does not stop the server", "statement": "A failure to accept one connection, or of a freshly accepted peer that is already gone, does not stop the server from accepting others. (False: either error leaves serve_http2, whose result is unwrapped.)", "quantifier": "every history, at every point of which one accept or local_addr failure may happen", "why_tests_cant": "The failure may come at any point of any history.", "anchors": ["src/lib.rs: serve_http2, start"]}
{"id": "C41", "title": "Tile samples survive packing into bytes", "statement": "For every list of components with 1 to 32 bits per sample and every image content, the bytes written by get_tile_data and read back by copy_tile_data give the same samples when the component is unsigned or has more than 16 bits, on either byte order. For signed components of up to 16 bits the sign is lost (refuted), a component without columns panics (refuted), and the row width assumed differs from the component width when the image origin is not a multiple of the subsampling (refuted). The decoded size is exact or an error.", "quantifier": "all component lists, sample values, buffer contents, byte orders", "why_tests_cant": "Tests use unsigned 8-bit images that fill one tile; the conversion is only used with several tiles and the defect only shows on negative samples.", "anchors": ["openjp2-rs/src/j2k.rs:12373", "openjp2-rs/src/j2k.rs:12413", "openjp2-rs/src/tcd.rs:2854", "openjp2-rs/src/tcd.rs:2609", "openjp2-rs/src/tcd.rs:1506"]}
{"id": "C42", "title": "Decoded tiles land in their place in the image", "statement": "For every output region and every decoded tile component touching it, update_image_data makes each output sample inside the tile equal to the tile's sample at the same place, leaves the other samples as they were (0 in a fresh buffer, whatever the allocator returned), and writes nothing outside the buffer; a tile apart from the region is an error. If all tiles of an image are given in any order, at any reduction and subsampling, every output sample comes from the one tile containing it.", "quantifier": "all image sizes, tile grids, subsamplings, reductions, tile orders, sample values, contents of fresh memory", "why_tests_cant": "Unbounded geometry with four overlap cases per axis; uninitialised memory does not show in tests.", "anchors": ["openjp2-rs/src/j2k.rs:9537", "openjp2-rs/src/j2k.rs:11538"]}
{"id": "C43", "title": "Skipped packets keep the reader in step", "statement": "For every packet data whatever, two runs over the packets of a tile that differ in which packets are wanted both fail or both find every packet at the same place; and the state of a precinct does not depend on what is skipped elsewhere. What is left after a packet is always an end piece of the data.", "quantifier": "all byte strings, all packet sequences over any precincts and layers, all choices of wanted packets", "why_tests_cant": "Skipping and reading are separate code with separate bookkeeping of segments across layers; tests of partial decoding use few files.", "anchors": ["openjp2-rs/src/t2.rs: opj_t2_skip_packet, opj_t2_skip_packet_data, opj_t2_decode_packet"]}
{"id": "C44", "title": "Accepted main headers have parameters in range", "statement": "For every byte string accepted as a main header: the image is not empty, tiles cover its origin and are at most 65535, component precisions and subsamplings are in range, the size agrees with the container's; layers, component transform, resolutions (more than are discarded), code-block sizes, precinct sizes, step sizes, region shifts and progressions are in range, and there is one set of parameters per component. Not guaranteed (refuted): a step size for every subband, a known quantisation style, layer ends of progressions within the number of layers, known progression orders.", "quantifier": "all byte strings, all discarded resolution counts, all container sizes, all behaviours of the handlers not modelled that keep the ranges", "why_tests_cant": "Inputs are hostile byte strings in which segments may come in any order and be repeated.", "anchors": ["openjp2-rs/src/j2k.rs: opj_j2k_read_header_procedure, opj_j2k_read_siz, opj_j2k_read_cod, opj_j2k_read_coc, opj_j2k_read_SPCod_SPCoc, opj_j2k_read_SQcd_SQcc, opj_j2k_read_poc, opj_j2k_read_rgn"]}
{"id": "C45", "title": "Unknown marker segments are skipped", "statement": "A marker segment of unknown type is skipped whatever it holds. (Proved when its words, its length included, are not known markers and its length is even; false for odd lengths, where the next marker is missed, and for contents that look like a marker, which are obeyed: the length is not looked at.)", "quantifier": "all unknown markers and contents, at any place of the main header", "why_tests_cant": "Tests contain no unknown segments.", "anchors": ["openjp2-rs/src/j2k.rs: opj_j2k_read_unk"]}
{"id": "C46", "title": "Truncated code-blocks", "statement": "The first segments of an encoded code-block, without the bytes of the others, decode to coefficients that differ from the original by less than 2^p and have its sign or are 0, where p is the number of bit-planes with passes left out; each is the middle of its interval. (Proved for cuts at terminated passes. False for the rates given to passes that are not terminated: with that many bytes the passes up to it can decode differently than with all bytes.)", "quantifier": "every block, style and number of segments kept", "why_tests_cant": "Tests decode whole files.", "anchors": ["openjp2-rs/src/t1.rs: opj_t1_encode_cblk, opj_t1_decode_cblk"]}
{"id": "C47", "title": "Code-blocks are coded as Annex D says", "statement": "The bytes of an encoded code-block, segment by segment, are read by the MQ and raw decoders as the contexts and bits of the coding passes of ITU-T T.800 Annex D, for every style: order of the scan, contexts, run lengths, segmentation symbols, raw and terminated passes, resets.", "quantifier": "every block, band and style", "why_tests_cant": "Encoder and decoder tests agree with each other even if both deviate from the standard.", "anchors": ["openjp2-rs/src/t1.rs: opj_t1_enc_sigpass, opj_t1_enc_refpass, opj_t1_enc_clnpass, opj_t1_enc_is_term_pass, opj_t1_encode_cblk"]}
{"id": "C48", "title": "The code-block encoder does not fail", "statement": "Encoding any code-block of up to 4096 coefficients of any 32-bit values fails no assertion, makes at most 73 passes (of the 100 allocated), gives rates that never decrease and end at the number of bytes, and bytes without markers; no pass and no block ends in a byte 255.", "quantifier": "every block, value and style", "why_tests_cant": "Assertions depend on the contents in ways tests do not reach.", "anchors": ["openjp2-rs/src/t1.rs: opj_t1_encode_cblk", "openjp2-rs/src/tcd.rs: opj_tcd_code_block_enc_allocate"]}
{"id": "C49", "title": "The code-block buffer holds the coded block", "statement": "The 74 + 4wh bytes allocated for a code-block are enough for what the encoder writes through a raw pointer. (False: a block of one coefficient of 15 bits with termination on each pass takes 83 bytes, allocated are 78.)", "quantifier": "every block and style", "why_tests_cant": "Overflows depend on rare contents; the sizes in the source were found by fuzzing.", "anchors": ["openjp2-rs/src/tcd.rs: opj_tcd_code_block_enc_allocate_data", "openjp2-rs/src/mqc.rs: opj_mqc_byteout"]}
{"id": "C50", "title": "Region of interest un-shift follows Annex H", "statement": "With a max-shift of s, decoded coefficients of at least 2^s are shifted down by s and smaller ones stay. (Proved outside [2^(s-1), 2^s); background coefficients there all come out as 0, since the threshold is compared with twice the magnitude.)", "quantifier": "every shift and coefficient", "why_tests_cant": "No test has a background.", "anchors": ["openjp2-rs/src/t1.rs: opj_t1_clbl_decode_processor"]}
{"id": "C51", "title": "The file header reader survives any bytes", "statement": "Reading a file header never panics and never reads outside its buffer; an accepted header has a non-empty image area, 1 to 16384 components, a palette table of exactly entries times columns values, and leaves a suffix of the input as the code-stream. (With overflow checks a palette of 16 or more columns panics; nothing else does.)", "quantifier": "every byte sequence", "why_tests_cant": "Inputs are unbounded; fuzzing only samples them.", "anchors": ["openjp2-rs/src/jp2.rs:60-140", "openjp2-rs/src/jp2.rs:171-305", "openjp2-rs/src/jp2.rs:622-955", "openjp2-rs/src/jp2.rs:1449-1588"]}
{"id": "C52", "title": "An accepted file begins with signature and file type", "statement": "If a file is accepted its first box is the signature box, its second the file type box, and a header superbox follows. (False of the code when a box that belongs into the header superbox comes before it: then neither signature nor file type is required. True otherwise.)", "quantifier": "every byte sequence", "why_tests_cant": "The order of boxes is a property of all accepted files.", "anchors": ["openjp2-rs/src/jp2.rs:1449-1588", "openjp2-rs/src/jp2.rs:1735-1800"]}
{"id": "C53", "title": "Palettes give each channel its colours", "statement": "After a palette is applied every channel's samples are the palette's column at the index of the source component, clamped to the table, and are readable. (False of the code: all samples have been freed, since old and new components share them; and a second channel from the same component looks up the first channel's colours. Channels from different components hold the right values before the release. No index is ever out of bounds.)", "quantifier": "every palette, mapping and image", "why_tests_cant": "Use after free does not show in most runs.", "anchors": ["openjp2-rs/src/jp2.rs:367-620", "openjp2-rs/src/image.rs:223-237", "openjp2-rs/src/image.rs:320-325"]}
{"id": "C54", "title": "Channel definitions put colours in order", "statement": "For definitions with distinct channels and colours, the channel that is colour a becomes component a-1, and no other field changes; definitions in component order set the alpha flags. (An opacity channel in front of the colours loses its flag; channel 0 need not be defined.)", "quantifier": "every accepted list of definitions and every list of components", "why_tests_cant": "The swaps compose; tests use one or two orders.", "anchors": ["openjp2-rs/src/jp2.rs:367-416", "openjp2-rs/src/jp2.rs:731-798"]}
{"id": "C55", "title": "The file header describes the image", "statement": "Depth and sign of each component, colour space and opacity as read back from the file are those of the image. (Signs are lost exactly when components of one depth differ in sign; images with a colour profile panic; colour spaces beyond sRGB, grey and sYCC become unknown; a further non-opacity channel comes back flagged. Channel definitions are written exactly when the one opacity channel follows the colours of a known colour space.)", "quantifier": "every image", "why_tests_cant": "The failing combinations are rare in test sets.", "anchors": ["openjp2-rs/src/jp2.rs:1177-1333", "openjp2-rs/src/jp2.rs:330-365", "openjp2-rs/src/jp2.rs:1838-1856"]}
{"id": "C56", "title": "Code-blocks survive the packets of a precinct", "statement": "The code-blocks of a precinct, coded by the block coder, cut into layers, written into packets, read back and decoded, yield their coefficients exactly if all passes are in some layer; if the layers end with a codeword segment, each coefficient is known but for the bit-planes of the passes left out. With enough room the packets are written.", "quantifier": "every precinct, style without high throughput, layer division, region-of-interest shift within 30 bits; coefficients that fit the sub-band's bit-planes", "why_tests_cant": "Block coder, tag trees, lengths and segments each work alone; that their conventions agree for all styles and layer cuts is a statement over all combinations.", "anchors": ["openjp2-rs/src/t1.rs:2232-2430", "openjp2-rs/src/t1.rs:2690-2920", "openjp2-rs/src/t2.rs:604-945", "openjp2-rs/src/t2.rs:1010-1500", "openjp2-rs/src/tcd.rs:59-204"]}
{"id": "C57", "title": "The packets of a tile are read back", "statement": "Encoder and decoder go through the same sequence of packets; written one behind the other in any number of tile-parts, they are read back from the concatenated tile-parts up to the last byte and no further, and every code-block of the tile decodes to its coefficients (exactly when all passes are in). Also for progression order changes without common packets and with layers not increasing.", "quantifier": "every tile geometry, progression order, number of layers up to 999, division into tile-parts, SOP/EPH setting and content", "why_tests_cant": "Depends on the joint state of all precincts over the whole sequence.", "anchors": ["openjp2-rs/src/t2.rs:140-310", "openjp2-rs/src/t2.rs:312-483", "openjp2-rs/src/pi.rs", "openjp2-rs/src/tcd.rs:1579-1681", "openjp2-rs/src/tcd.rs:2774-2812"]}
{"id": "C58", "title": "The coefficients of a tile survive code-blocks and packets", "statement": "The wavelet coefficients of every component of a tile are cut into code-blocks, coded, put into packets and written in any number of tile-parts; the decoder, with its own geometry and whatever its memory held, puts every coefficient back at its place in every component. No set-up step and no coding step fails.", "quantifier": "every tile geometry, sub-sampling, number of resolutions, precinct and code-block size, code-block style without HT, region of interest without selective bypass, progression order, up to 999 layers with all passes, coefficients that fit their bands' bit-planes", "why_tests_cant": "Coverage of every coefficient by exactly the right block, with the right offset in a buffer shared by all bands, depends on odd tile origins, empty bands and clipped blocks in combination.", "anchors": ["openjp2-rs/src/t1.rs:1822-2230", "openjp2-rs/src/t1.rs:2425-2700", "openjp2-rs/src/tcd.rs:1041-1370", "openjp2-rs/src/t2.rs:140-483"]}
{"id": "C59", "title": "A losslessly coded tile comes back sample by sample", "statement": "The samples of a tile, level-shifted, put through the reversible component transform (or not), the 5/3 wavelet transform, the block coder and the packets, and decoded in the reverse order, are exactly the original samples of every component, provided the coefficients fit their bands' bit-planes. They always do if the exponents and guard bits allow for the gain of the transform, which is bounded per band; with the encoder's exponents and at most one level two guard bits are enough, three with the component transform. (The encoder always uses two: with the component transform an image of 5 by 5 pixels comes back wrong.)", "quantifier": "every image content, sign and precision, tile geometry, sub-sampling, number of levels within 30 bits, with all settings of C58", "why_tests_cant": "The stages are tested on natural images, whose coefficients are far from the bounds; that all stages agree on the layout of the buffers is a statement about all geometries.", "anchors": ["openjp2-rs/src/tcd.rs:1579-1928", "openjp2-rs/src/tcd.rs:2206-2530", "openjp2-rs/src/tcd.rs:2645-2759", "openjp2-rs/src/dwt.rs:1356-1414", "openjp2-rs/src/j2k.rs:7544"]}
{"id": "C61", "title": "A divided tile carries each packet once", "statement": "A tile divided into tile-parts at the outermost step of its progression order (layers for LRCP, resolutions for RLCP, components for CPRL) has one tile-part for each value of that step, with exactly the packets of that value; their concatenation is the packet sequence of the undivided tile, which is the one the decoder expects. Undivided, there is one tile-part with all packets. (LRCP and RLCP need as many precincts in every resolution: otherwise packets of precincts that do not exist are written. Divided at a later step, packets are written several times. PCRL divided by position loses packets. RPCL panics, divided or not.)", "quantifier": "every tile geometry, number of components, resolutions, precincts and layers", "why_tests_cant": "Tests divide one or two images with one precinct per resolution; whether a carry from one step to the next repeats or loses a packet depends on all the numbers at once.", "anchors": ["openjp2-rs/src/j2k.rs:164-211", "openjp2-rs/src/j2k.rs:839-982", "openjp2-rs/src/pi.rs:1816-1908", "openjp2-rs/src/pi.rs:2182-2726", "openjp2-rs/src/j2k.rs:12655-12912"]}
{"id": "C60", "title": "Tile-parts are put together again", "statement": "From a conforming sequence of tile-parts (the tile-parts of one tile in order, those of different tiles mixed in any way, their number told in all, some or none of them, any marker segments in their headers) the decoder recovers for each tile in the area to decode exactly the concatenation of its data and the coding parameters its headers leave, decodes each such tile exactly once, as soon as it is known to be complete or else at the end, and skips the others; in particular it does so for what the encoder writes in up to 255 tile-parts per tile. On arbitrary bytes it ends and never touches memory outside a tile's buffer. (False: more than 255 tile-parts, whose number is truncated and whose data are silently lost; a tile without data; custom streams that report failure at the end, when not strict.)", "quantifier": "every sequence of tile-parts, division, header segments, area to decode, seekable or not, strict or not; every byte string", "why_tests_cant": "A test has one layout of tile-parts; which buffer grows, when a tile counts as complete and what the look-ahead skips depend on how the parts of all tiles are interleaved.", "anchors": ["openjp2-rs/src/j2k.rs:3551-4008", "openjp2-rs/src/j2k.rs:4101-4425", "openjp2-rs/src/j2k.rs:8926-9536", "openjp2-rs/src/j2k.rs:11538-11655", "openjp2-rs/src/j2k.rs:12655-12912"]}
{"id": "C62", "title": "Packet length markers tell the packets and fit their room", "statement": "The PLT segments written for a tile-part are numbered from 0, at most 256, and tell the size of each packet in order, none divided between segments; the decoder accepts them and reads such tile-parts back like those without. Writing fails only when 256 segments are not enough. The bytes set aside (by an estimate that is wrong for single segments) suffice for every tile-part, so that the buffer is not overrun, the assertion on its size holds, and room for EOC remains. (False if the number of bytes to set aside exceeds 2^32: it wraps, and up to 16 MB are written to a smaller buffer. The decoder refuses a segment exactly if it ends in a length whose bits so far, shifted in 32 bits, are not zero.)", "quantifier": "every list of packet sizes with a sum below 2^32, every number of packets", "why_tests_cant": "A second segment needs tens of thousands of packets, lengths of five bytes packets of 256 MB.", "anchors": ["openjp2-rs/src/j2k.rs:2617-2652", "openjp2-rs/src/j2k.rs:2940-2982", "openjp2-rs/src/j2k.rs:4012-4239", "openjp2-rs/src/pi.rs:2142-2180"]}
{"id": "C63", "title": "A whole image comes back from its code-stream", "statement": "For reversible coding without progression changes, with one coding style for all components, enough bit-planes and every coding pass written, and with tile-parts that keep to their limits (with or without packet length markers): the decoder accepts the code-stream the encoder writes and gives every component its origin and size and every sample its value, for any number of tiles, components, layers and tile-parts, any sub-sampling with non-empty tile components, and whatever its buffers held; coding succeeds when tile-parts have room. With several tiles samples must be unsigned or have more than 16 bits, and rows be as long as components are wide. (False: that the slice of the plane made for a tile stays inside the plane; that the width set on reading the header is that of the reduced component.)", "quantifier": "every image, every header and every choice of coding within the stated limits; every content of uninitialised buffers", "why_tests_cant": "Images, tilings, sub-samplings and divisions are unbounded, and a test sees one content of uninitialised buffers; that the slice ends after the plane changes no result.", "anchors": ["openjp2-rs/src/j2k.rs:12167-12270", "openjp2-rs/src/j2k.rs:12373-12454", "openjp2-rs/src/j2k.rs:11888-11942", "openjp2-rs/src/j2k.rs:11538-11655", "openjp2-rs/src/image.rs:379-410"]}
{"id": "C64", "title": "Decoding a window gives the window of the decoded tile component", "statement": "For every tile component of at most 2^30 rows and 2^32 samples at the decoded resolution, every window in it, every number of resolutions and every set of code blocks that agrees with a plane of coefficients and holds those within two of the window in each sub-band: the decoder of windows (5/3 transform on a sparse array) fails only if memory runs out, and otherwise its buffer holds exactly the window of what the decoder of whole tile components makes of the plane, and nothing else is changed. The windows of each level lie in their sub-bands, and every sample at most two away from the window is computed.", "quantifier": "every tile component, window, number of resolutions, reduction, plane and set of blocks within the stated limits; every failure of allocation", "why_tests_cant": "Windows, positions and parities of tile components are unbounded; margins that are too small show only for particular parities, and a test compares few windows.", "anchors": ["openjp2-rs/src/dwt.rs:160-262", "openjp2-rs/src/dwt.rs:1525-2102", "openjp2-rs/src/sparse_array.rs"]}
{"id": "C65", "title": "An area of a tile is decoded to what the whole tile holds there", "statement": "For every tile that can be decoded whole (reversible coding, any order and division of its packets), and every area of the reference grid that meets it: decoding the area (reading only the packets, decoding only the code blocks whose precincts and blocks are within two coefficients of the area, then the transform of windows, the component transform and the level shift) fails only if memory runs out, and otherwise gives in each component exactly the samples whose position, scaled by its sub-sampling, is in the area, with the values the whole tile has there; with the encoder, the samples that were encoded. When the area holds the whole tile, whole components result. (Not for components of one sample at the origin with several resolutions, of more than 2^30 rows. False for high-throughput blocks: an area of them is zero.)", "quantifier": "every tile, component, sub-sampling, precinct and block size, packet sequence, area and failure of allocation within the stated limits", "why_tests_cant": "Whether a precinct touches an area depends on positions, parities, levels and sizes; a test decodes few areas, and a packet skipped by mistake shows only for some of them.", "anchors": ["openjp2-rs/src/tcd.rs:1683-1925", "openjp2-rs/src/tcd.rs:2156-2530", "openjp2-rs/src/tcd.rs:2926-3090", "openjp2-rs/src/t2.rs:364-478", "openjp2-rs/src/t1.rs:1826-2230", "openjp2-rs/src/dwt.rs:1700-1775"]}
{"id": "C66", "title": "The area asked for selects the right tiles and output samples", "statement": "For every image and tile grid of a valid header and every area asked for: an area with pixels is refused exactly if it begins before 0, begins after the end of the image or ends before the image begins; if it shares a pixel with the image, the bounds set for the output image are exactly what is common to both, the tiles not skipped are exactly those with a pixel in the area, and each component of the output image is exactly the samples, at the reduced resolution, whose position scaled by sub-sampling and reduction is within those bounds; if nothing is asked for, everything is selected. A single tile asked for by number gets the extent that the tile has, if the tile grid ends before 2^32. (False beyond that: the end of the tile wraps below its beginning and the component width becomes 2^32 - 1. False also that areas without any pixel of the image are refused: one that ends where the image begins is accepted with a tile to decode, and so is one that ends before it begins, if sub-sampling hides it.)", "quantifier": "every header, area with 32 bit coordinates, sub-sampling, reduction factor up to 32 and tile", "why_tests_cant": "The divisions are rounded down at one end and up at the other and mix signed and unsigned numbers; tests use areas of one image with its grid at the origin.", "anchors": ["openjp2-rs/src/j2k.rs:9770-9838", "openjp2-rs/src/j2k.rs:9859-10080", "openjp2-rs/src/j2k.rs:3797-3801", "openjp2-rs/src/j2k.rs:11944-12050"]}
{"id": "C67", "title": "An area of an image comes back from its code-stream", "statement": "For every image that C63 covers and every area with non-negative beginning that holds at least one sample of each component: if the tiles that meet the area were coded with all their passes (whatever the other tiles hold, as long as their tile-parts are framed properly), have no high-throughput blocks and at most 2^30 rows, and memory does not run out, then reading the main header, setting the area and decoding gives in each component exactly the samples whose scaled position is in the image and in the area, each with the value that was encoded, whatever buffers held before. (False for an area that holds no sample of a sub-sampled component: it is accepted, but decoding fails.)", "quantifier": "every image, tile grid, sub-sampling, coding parameters, area, division into tile-parts, buffer contents and content of tiles outside the area within the stated limits", "why_tests_cant": "The copy to the output depends on how the area cuts each tile; tests compare a few areas of a few files.", "anchors": ["openjp2-rs/src/j2k.rs:9439-9765", "openjp2-rs/src/j2k.rs:9859-10080", "openjp2-rs/src/j2k.rs:11487-11660", "openjp2-rs/src/tcd.rs:1683-1925"]}
{"id": "C68", "title": "The MagSgn and SPP segments of a high-throughput block are read without their stuffed bits", "statement": "For every segment of bytes in which no byte after 255 has its highest bit set, wherever it lies in memory: every word the forward reader gives, whatever numbers of bits (up to 32) the decoder consumes between fetches, is the next 32 bits of the segment in order, least significant bit of a byte first, the highest bit of a byte after 255 left out, followed by the fill value (ones for MagSgn, zeros for SPP) without end; nothing outside the segment is read and no assertion fails. (False for segments with the bit set: it changes the bit before the next byte.)", "quantifier": "every segment, alignment and sequence of numbers of bits consumed", "why_tests_cant": "Stuffing changes the position of all later bits, and the reader works on four bytes at once from aligned addresses; a test sees few combinations of 255 bytes with the four alignments and the end of the segment.", "anchors": ["openjp2-rs/src/ht_dec.rs:983-1045", "openjp2-rs/src/ht_dec.rs:1055-1100", "openjp2-rs/src/ht_dec.rs:1107-1126"]}
{"id": "C69", "title": "The VLC and MRP segments of a high-throughput block are read backwards without their stuffed bits", "statement": "For every segment in which no byte with its low seven bits set that comes (in reading order) after one above 0x8F has its highest bit set, wherever it lies in memory: every word the backward readers give after any numbers of bits consumed holds the next bits of the segment from its last byte to the first, low bit of a byte first, the highest bit left out of a byte with low seven bits set after one above 0x8F (for VLC the first byte is the high half of the last but one byte of the block), zeros after that; nothing outside the segment is read and no assertion fails. (False for segments that do set the bit.)", "quantifier": "every segment, alignment and sequence of numbers of bits consumed", "why_tests_cant": "Like C68, with a stuffing rule that looks at two bytes and a first byte of four bits.", "anchors": ["openjp2-rs/src/ht_dec.rs:406-479", "openjp2-rs/src/ht_dec.rs:494-580", "openjp2-rs/src/ht_dec.rs:592-754"]}
{"id": "C70", "title": "The MEL events the block decoder gets are those the segment codes", "statement": "For every block and every number of events: unless the block is refused, the events got through the store of runs are one by one those that the adaptive run-length code (13 states, exponents 0 0 0 1 1 1 2 2 2 3 3 4 5) gives on the bits of the segment, highest bit of a byte first, the highest bit of a byte after 255 left out, the low four bits of the last byte taken as ones, ones without end after it; nothing outside the block is read. A block in which every byte of the segment after 255, and the last byte of the block, is at most 0x8F is not refused.", "quantifier": "every block, alignment and number of events", "why_tests_cant": "Runs are decoded ahead and packed into a word, up to eight at seven bits each; tests hardly ever fill the store, end the segment and meet a 255 at the same time.", "anchors": ["openjp2-rs/src/ht_dec.rs:179-385", "openjp2-rs/src/ht_dec.rs:1520-1532", "openjp2-rs/src/ht_dec.rs:1598-1612"]}
{"id": "C71", "title": "u values of a pair of quads are decoded as the standard says", "statement": "For every 32 bits at the head of the VLC segment and every mode: the two values and the number of bits consumed are those of the prefix code 1, 01, 001, 000 (values 1, 2, 3 and 5, suffixes of 0, 0, 1 and 5 bits; both prefixes come before the suffixes), plus one; on the first line, mode 4 adds two to both, and mode 3 with a first prefix of three bits codes the second value in one bit.", "quantifier": "all 2^32 words and all modes", "why_tests_cant": "2^32 words in five modes; tests see the short codes only.", "anchors": ["openjp2-rs/src/ht_dec.rs:766-881", "openjp2-rs/src/ht_dec.rs:891-965"]}
{"id": "C72", "title": "High-throughput readers read four bytes at once only from aligned addresses", "statement": "In every state that the forward, backward and MEL readers can reach from their start by reading and consuming, if so many bytes are left that the next read takes four at once, their address is a multiple of four (anything else would be undefined behaviour, since a pointer to a 32-bit word is dereferenced).", "quantifier": "every block, address and history of the reader", "why_tests_cant": "Undefined behaviour does not show on machines that allow unaligned reads.", "anchors": ["openjp2-rs/src/ht_dec.rs:155-165", "openjp2-rs/src/ht_dec.rs:330-363", "openjp2-rs/src/ht_dec.rs:515-545", "openjp2-rs/src/ht_dec.rs:690-717", "openjp2-rs/src/ht_dec.rs:1070-1095"]}
{"id": "C73", "title": "The VLC tables of high-throughput blocks are prefix codes that make sense", "statement": "In each of the eight contexts of both tables the code words have one to seven bits and form a complete prefix code: the entry found does not depend on the bits after the code word; no two code words of a context stand for the same pattern; e_1 is set only where e_k is, e_k only for significant samples of quads with u coded, u is coded only for quads with a significant sample, and in context 0 every code word has one.", "quantifier": "both tables, every context, every word", "why_tests_cant": "2048 entries copied by hand through two ports; a wrong entry shows only in blocks that use it.", "anchors": ["openjp2-rs/src/t1_ht_luts.rs:3-79", "openjp2-rs/src/t1_ht_luts.rs:80-150"]}
{"id": "C74", "title": "The cleanup pass of a high-throughput block gives the coded samples", "statement": "For every block with one pass of at most 29 bit-planes, of any width and height, with well-formed segments, wherever it lies and whatever the memory held before: it is refused if its lengths or bit-planes are out of range, its MEL segment is malformed, an exponent bound exceeds the bit-planes or a significant sample lies outside; otherwise every sample is the one coded by the VLC code words in the contexts of its neighbours, the MEL events, the u values over the exponent predictor of the line above, and the MagSgn bits, at half a step above the magnitude in units of half a step of the lowest bit-plane; nothing else is written, no index leaves a table, no shift is too wide. (False for 30 bit-planes, which are accepted: a positive sample comes out negative.)", "quantifier": "every block, size, alignment, number of bit-planes and memory before", "why_tests_cant": "Three interleaved streams with contexts from four neighbours and from the line above, and sixteen copies of the code for one sample; tests see a few encoders' blocks, mostly of sizes that are multiples of four.", "anchors": ["openjp2-rs/src/ht_dec.rs:1260-1270", "openjp2-rs/src/ht_dec.rs:1395-1459", "openjp2-rs/src/ht_dec.rs:1486-2076", "openjp2-rs/src/ht_dec.rs:2815-2833"]}
{"id": "C75", "title": "Packed packet headers of the main header are merged to the packs they were cut from", "statement": "For every list of PPM segments: if their data, by rising index, are packs, each after its length in four bytes, cut anywhere but inside a length, with 1 to 2^32 - 1 bytes in all packs, the merged headers are the bytes of the packs in order; anything else is refused; in no case is a byte written outside the buffer. (Packs without any byte are well formed, but refused.)", "quantifier": "every list of segments, well formed or not", "why_tests_cant": "Two passes with the same case distinctions, the second without the checks of the first; a difference is a heap overflow on files no test has.", "anchors": ["openjp2-rs/src/j2k.rs:3092-3270", "openjp2-rs/src/malloc.rs:129-135"]}
{"id": "C76", "title": "Packed header segments may come in any order, and those of a tile are joined by rising index", "statement": "For every sequence of PPM or PPT segments: if each has an index and at least one byte of data, and no index comes twice, reading succeeds, and what is kept by rising index is the data by rising index; otherwise it is refused. The merged headers of a tile are the data joined by rising index, with no wrap of the 32-bit size and nothing written outside the buffer; merging twice is refused.", "quantifier": "every sequence of segments, every order and choice of indices", "why_tests_cant": "The array of segments grows by need; 256 indices in any order with gaps are beyond tests.", "anchors": ["openjp2-rs/src/j2k.rs:2997-3080", "openjp2-rs/src/j2k.rs:3284-3372", "openjp2-rs/src/j2k.rs:3386-3445"]}
{"id": "C77", "title": "Packets with packed headers are read like packets in one piece", "statement": "For all packets that the encoder writes for a tile (any styles but high-throughput, SOP and EPH markers, layers, precincts, tile-parts), with their headers taken out: reading headers from the packed ones and the rest from the tile data gives the coefficients as C57 states them and uses up just these bytes; with PPT segments in any order; with PPM segments for a sequence of tiles that are all decoded, the headers in the order of decoding. (False with PPM if a tile is left out because it is outside the decoded area, or if tile-parts of tiles are interleaved: tiles are then read with other tiles' headers.)", "quantifier": "all tiles, packets, layers and divisions into tile-parts", "why_tests_cant": "No encoder here writes packed headers; tests have a few files of others, decoded whole.", "anchors": ["openjp2-rs/src/t2.rs:1065-1108", "openjp2-rs/src/t2.rs:1352-1389", "openjp2-rs/src/j2k.rs:9329-9333"]}
{"id": "C78", "title": "A custom multi-component transform comes back from its segments", "statement": "For every transform of 1 to 127 components: from any matrix of binary32 patterns, level shifts up to 2^24 and component depths, the encoder's set-up and writers give the CBD, two MCT, MCC and MCO segments of the standard, with the shifts as binary32 numbers; and reading such segments after any CBD, MCT and MCO segments gives just this matrix, these shifts and depths. (False: a stage that names any collection but the first read is ignored, so a second transform never takes effect; arrays of 16-bit integers lose their sign; from 128 components on the length of the matrix segment wraps; and the COD segment that the encoder writes with such a transform is refused by the decoder, for all parameters.)", "quantifier": "all matrices, shifts, depths, numbers of components, and all segments read before", "why_tests_cant": "No test writes or reads a custom transform; the code paths are only reached with Part 2 profiles.", "anchors": ["openjp2-rs/src/j2k.rs:5068-5131", "openjp2-rs/src/j2k.rs:5299-5399", "openjp2-rs/src/j2k.rs:5799-5896", "openjp2-rs/src/j2k.rs:5903-5964", "openjp2-rs/src/j2k.rs:7924-8123"]}
{"id": "C79", "title": "Malformed transform segments never reach outside an array or leave a dangling pointer", "statement": "For every number of components up to 16384 and every sequence of CBD, MCT, MCC and MCO segments of any bytes in the main header, then the copy to a tile, then any sequence in tile headers: no read or write leaves an array; records of collections point to records in the array that exists, also after it grew or was copied; there are at most 256 records of each kind; a matrix has as many entries as the square of the number of components.", "quantifier": "all sequences of segments of any bytes", "why_tests_cant": "Pointers between two arrays that are reallocated: use after free shows only in files with more than ten arrays before a collection, or collections before arrays.", "anchors": ["openjp2-rs/src/j2k.rs:5145-5290", "openjp2-rs/src/j2k.rs:5407-5663", "openjp2-rs/src/j2k.rs:5728-5797", "openjp2-rs/src/j2k.rs:5978-6036", "openjp2-rs/src/j2k.rs:8499-8611"]}
{"id": "C80", "title": "Rate allocation divides the passes of every block into layers, without loss", "statement": "For all float arithmetic, distortions, strategies, layer goals and answers of trial runs, up to 100 layers: no array is left, and the layers of each block are its passes cut at rising numbers, with the bytes of those passes; a last layer without a goal takes all that is left, so the tile round trips (C58-C67) hold after allocation. A layer takes, from where the one before ended, always the next pass that is worth its bytes by the threshold. By rate, a layer that was accepted in a trial run is the one made. Fixed allocation gives the bit-planes asked for, if the matrix rises and stays within the precision.", "quantifier": "all blocks, rates, thresholds, layer goals and float operations; induction over layers, search steps and passes", "why_tests_cant": "The search takes up to 128 data-dependent steps per layer over all blocks; trial layers overwrite each other in place, and skipped passes or stale layers change only the bytes of some later layer.", "anchors": ["openjp2-rs/src/tcd.rs:47-204", "openjp2-rs/src/tcd.rs:206-368", "openjp2-rs/src/tcd.rs:370-675"]}
{"id": "C81", "title": "Progression order changes of the encoder: none of the packets is lost unnoticed", "statement": "For all entries and all numbers of resolutions, components and layers: the check of the progression order changes stays inside its array, and for up to 2^32 packets says yes exactly if each packet of the tile is in one of its entries. If the entries of a tile come first in the parameters, the tile gets exactly those, cut to its components, so after a yes it has every packet.", "quantifier": "all lists of entries, all sizes; induction over entries and the six loops", "why_tests_cant": "The array has one cell for each of up to 35 billion packets, with indices stepped in 32 bits; a lost packet shows only as an incomplete image of some tile after the first.", "anchors": ["openjp2-rs/src/j2k.rs:743-838", "openjp2-rs/src/j2k.rs:7357-7400"]}
{"id": "C82", "title": "The tile-part lengths in the main header lead to every tile-part", "statement": "For all tiles, progressions and tile-parts, up to 10921 of them: the TLM segment of the finished code-stream, read as Annex A.7.1 says, has the tile number and the length of every tile-part in order; adding up the lengths gives the place of each; the update changes no other byte, and the destination ends after the end marker. More tile-parts are refused.", "quantifier": "all numbers of tiles, progressions and tile-parts, all tile-parts, any former contents of the buffer; induction over tiles, progressions and tile-parts", "why_tests_cant": "The decoder ignores the segment, so round trips cannot see a wrong one; fields change their width at 256 tile-parts, and the segment is written twice, at positions kept over the whole encoding.", "anchors": ["openjp2-rs/src/j2k.rs:425-461", "openjp2-rs/src/j2k.rs:902-984", "openjp2-rs/src/j2k.rs:3451-3539", "openjp2-rs/src/j2k.rs:4781-4796", "openjp2-rs/src/j2k.rs:12655-12954"]}
{"id": "C83", "title": "Stream writes reach the destination as they would a file", "statement": "When a history of writes, skips and seeks on an output stream, ended by a flush, succeeds, the destination holds exactly what the same history leaves in a file, whatever the capacity of the buffer, the sizes of the pieces that the destination takes, and the turns at which it could have failed; the offset is the position of the file at every moment. Over a destination that does its part every history succeeds that stays above 0. A failed write shorter than the capacity has taken nothing, and a failed skip, seek or flush has moved nothing. (False: a destination with a seek callback but no skip callback says that it can seek, and cannot; after a large write failed half way the offset is not the position of the destination; a write callback that claims more than it was offered makes a large write panic.)", "quantifier": "all histories, capacities, contents and replies of the callbacks; induction over histories and over the loops of the buffered writer", "why_tests_cant": "Histories are unbounded, and what the buffer holds at a seek or failure depends on all sizes before it; tests use files, which take everything at once.", "anchors": ["openjp2-rs/src/stream.rs:60-181", "openjp2-rs/src/stream.rs:211-264", "openjp2-rs/src/stream.rs:367-452"]}
{"id": "C84", "title": "What the encoder's set-up accepts, it writes into the header as asked", "statement": "For all parameters and images: code-block sizes and numbers of resolutions are accepted exactly if they are powers of two from 4 to 1024 with product at most 4096, and 1 to 33. If the tile grid and components are legal, the exponents of the step sizes fit five bits and the asked precincts (the last one given halved downwards) are at least 2 above the lowest resolution and at most 32768, then accepted and validated parameters give a header that is read back as the parameters asked for: image, tiles, layers, progression, transforms, code-blocks, precincts, step sizes (those of the irreversible transform to eleven bits after the leading one), region of interest. Such parameters are accepted. (False without these conditions, none of which is checked: precincts halved to 1, precincts of 65536, tile offsets behind the image and 30-bit components are accepted and give headers that cannot be read or mean something else; over 100 layers, empty tile grids and precincts without a size panic.)", "quantifier": "all parameters, images, components and gains of bands", "why_tests_cant": "About forty parameters interact through halving, rounding and fields of 4, 5 and 8 bits; tests use the combinations of the command-line tool.", "anchors": ["openjp2-rs/src/j2k.rs:6835-6905", "openjp2-rs/src/j2k.rs:6975-7143", "openjp2-rs/src/j2k.rs:7241-7298", "openjp2-rs/src/j2k.rs:7484-7600", "openjp2-rs/src/j2k.rs:8157-8206", "openjp2-rs/src/dwt.rs:638-650", "openjp2-rs/src/dwt.rs:1356-1385"]}
{"id": "C85", "title": "Tag trees that are used again for the next tile are fresh trees", "statement": "For every sequence of tiles with up to 2^13 by 2^13 code-blocks in a precinct, whatever values a tile leaves in the nodes, and wherever the allocator moves the nodes when they grow: no write leaves the allocated nodes; the tree of the next tile has the shape and contents of a newly made one, each pointer leads to its parent at the new place, and following pointers from a leaf visits the nodes that C18 speaks of, all of them allocated. The nodes are at the address the allocator gave, or where they were if they did not grow. It is null only for a precinct without code-blocks or when there is no memory. (False from 2^28 code-blocks on, where the size in 32 bits wraps.)", "quantifier": "all sequences of tile sizes, contents left behind, and addresses; induction over tiles", "why_tests_cant": "Pointers into an array that moves: a stale one shows only after a tile whose precinct is larger than all before it, in the allocator's choice.", "anchors": ["openjp2-rs/src/tgt.rs:50-141", "openjp2-rs/src/tgt.rs:150-259", "openjp2-rs/src/tgt.rs:272-287", "openjp2-rs/src/tcd.rs:1279-1306"]}
{"id": "C86", "title": "Code-blocks that are used again for the next tile are as new", "statement": "For every sequence of tiles with any numbers of code-blocks in a precinct and everything that reading packets and decoding may do with them (segments made one after the other, chunks added or dropped, any numbers and decoded data left): no access leaves the arrays of blocks, segments or chunks; the blocks of the next tile are at their places with all numbers, segments, chunks and decoded data cleared, whatever room they kept. A chunk that is added is the last one and the others stay, also when the array grows into memory of any contents; a segment that is made is empty with the passes of the code-block style, and no other changes. Each leaves everything else of the block, and fails only without memory.", "quantifier": "all sequences of tiles and uses, fewer than 2^31 segments and 2^32 - 1 chunks of a block; induction over histories", "why_tests_cant": "What one tile leaves behind shows only in a later tile of the same decoder whose block lies at the same index; arrays grow at numbers of segments and layers beyond those of test files.", "anchors": ["openjp2-rs/src/tcd.rs:1220-1278", "openjp2-rs/src/tcd.rs:1307-1352", "openjp2-rs/src/tcd.rs:1467-1504", "openjp2-rs/src/t2.rs:1488-1517", "openjp2-rs/src/t2.rs:1661-1712"]}
{"id": "C87", "title": "The memory of images belongs to one image and is freed once", "statement": "For every history of creating images, creating components, copying headers, allocating component data, setting profiles, taking components, handing decoded data to the caller (all or chosen components) and destroying images, with memory or without: if images and component numbers exist, data are handed to an image with no more components, and all components with data are chosen, then nothing is freed twice, no memory that was never written is taken for a pointer, and no allocation is referred to twice. If no profile is put where one is, everything allocated is referred to, and nothing is left when all images are destroyed. Data that are handed over arrive at the components they were decoded for, or in the order chosen, and the giver keeps none; copied headers have as many components and no data; allocating data of one component changes no other. (False otherwise: copying a header with a profile twice onto an image loses the first profile. A clone of an image shares its data, which are freed twice.)", "quantifier": "all histories, numbers of components and failures of allocation; induction over histories with a count of references", "why_tests_cant": "Double frees and leaks depend on the order of calls and on which allocation fails; tests do not fail allocations.", "anchors": ["openjp2-rs/src/image.rs:55-83", "openjp2-rs/src/image.rs:159-207", "openjp2-rs/src/image.rs:225-255", "openjp2-rs/src/image.rs:283-330", "openjp2-rs/src/image.rs:367-372", "openjp2-rs/src/image.rs:419-480", "openjp2-rs/src/j2k.rs:11804-11885"]}
