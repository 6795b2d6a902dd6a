# Formal model of laya: design

Source: `/repo` (sophmi/laya), a Rust IIIF image server plus a vendored Rust
port of OpenJPEG (`openjp2-rs`). The model is written in Rocq/Coq 8.16.1 under
`rocq/theories`. It is hand-written from the text of the sources: nothing was
compiled or executed.

## Layout

* `*Model.v`  – executable Gallina transcription, function by function, each
  definition carrying a comment with file and lines in `/repo`.
* `*Spec.v`   – small specifications that do not mention the model.
* `*Proofs.v` – lemmas and proofs.
* `*Props.v`  – the property theorems (named in `MANIFEST.json`), their concrete
  instances (`Example`) and `Print Assumptions`.

## Conventions

* Rust `&str`/byte strings are Coq `string`s (sequences of 8-bit characters).
* Machine integers are `Z`/`N` with explicit wrap where Rust wraps
  (`wrapping_*`, casts) and an explicit panic value where Rust panics.
* Loops over pointers are modelled over lists/functions; where pointer
  arithmetic or loop unrolling was folded, the comment on the definition says so.
* External calls (file system, transport) are parameters of the statements.

## Plan per property

| id | model | proof |
|----|-------|-------|
| C01,C02 | `Region::from_str`, `parse_region_selectors`, selector validation, `str::parse::<u32>`, `str::parse::<f32>` (grammar plus round-to-nearest-even on exact rationals) | iff between parser and an inductive grammar; error-order characterisation |
| C03,C04,C05,C06 | `Size`, `Rotation`, `Quality`, `Format` parsers | iff with grammar; rounding-interval lemma for 100 and 360 |
| C07,C08 | `decode_image_request` in both build modes | round trip of a canonical printer; refutation plus "every canonical URI is rejected in release" |
| C09 | `urlencoding::decode`, UTF-8 validation | encode/decode round trip, rejection |
| C10 | `handle_request`, `image_request` with the image source as a parameter | case analysis; refutation for `info.json` |
| C11 | `DiskImageSource::resolve` as lexical path join | refutation by witness, partial positive theorem |
| C12,C14 | `ResponseBody`, `HyperStream::poll_read` | induction on poll histories; refutation |
| C13 | `serve_http2` as a transition system | invariant over all executions |
| C15,C16,C17 | `bio.rs` | invariants relating the bit list to the byte list |
| C18 | `tgt.rs` | simulation between encoder and decoder trees over arbitrary query lists |
| C19,C20 | `t2.rs` codes, packet header and body | round trip on top of C15/C18, layer by layer |
| C43 | `t2.rs` packet skipping | simulation between reading and skipping |
| C44 | `j2k.rs` main header reader | invariant over any sequence of segments |
| C45 | `j2k.rs` `read_unk` | induction over the words skipped; witnesses |
| C21,C22,C35 | `mqc.rs` | interval invariant for the arithmetic coder, byte-stuffing invariant |
| C23 | `mct.rs` | algebra modulo 2^32 |
| C24,C25 | `dwt.rs` 5/3 | lifting-step inversion, induction on resolutions |
| C26 | `sparse_array.rs` | refinement to a function of (x,y) |
| C27 | `pi.rs` state machine | refinement of the label machine to nested enumerations |
| C28,C29,C38 | `math.rs`, tile/codeblock geometry | integer arithmetic |
| C30,C31 | `cio.rs`, marker segments | writer/reader round trips |
| C32,C51–C55 | `jp2.rs` | `Jp2Spec` is Annex I; `Jp2Trip` writer/reader, `Jp2Setup` layout against the spec, `Jp2Safe` invariant over any bytes, `Jp2Order` against the spec's box list, `Jp2Post` palettes and channel definitions over an explicit heap; witnesses |
| C33 | `stream.rs` | refutation at end of file; positive theorem elsewhere |
| C34 | `invert.rs` | control-flow argument: no success for n >= 3 |
| C36,C46–C50 | `t1.rs` | `T1Spec` is Annex D on arrays without flag words; encoder and decoder passes simulate it (`T1Enc`, `T1Dec`), `T1Code` lays passes out in segments on top of C21/C22/C35, `T1Length` bounds the coded length, `T1Block`/`T1Trip` compose, `T1Total` shows no assertion fails; witnesses |
| C37 | DC shift | arithmetic |
| C39,C40 | accept loop and per-connection tasks of `src/lib.rs` | refutations over reachable states of the C13 transition system |
| C41 | `get_tile_data`, `update_tile_data`, `copy_tile_data` byte packing | per-sample round trip, refutations |
| C42 | `update_image_data` | function of (x,y) on the destination, frame condition |
| C56,C57 | `CblkModel` (hand-over between `t1.rs` and `t2.rs`), `PacketsModel` (the packet loops of `t2.rs`) | composition of C20, C27, C36, C46: `CblkTrip` one block, `CblkSound` an invariant of the decoder's blocks, `PacketsProofs` simulation over the sequence, `PacketsOrder` layers come in turn, `PacketsRoom` success |
| C58 | `TileModel` (the block loops of `t1.rs` over a tile) | composition of C38 and C57: `TileGeom` where a sub-band lies in its component and that the bands cover it, `TileProofs` both sides set up the same blocks; an invariant of the written buffer |
| C59 | `SampleModel` (the stages of `encode_tile` and `decode_tile`; the encoder's exponents and guard bits) | composition of C37, C24, C25, C58; `SampleDwt` the gain of the 5/3 transform, level by level; refutation: the guard bits are too few with the component transform |
| C60 | `PartModel` (tile-parts: SOT, headers, SOD; the loop over tiles), `PartSpec` | invariant over the tile-parts read so far (`PartProofs`); what the encoder writes is such a sequence (`PartWrite`); an invariant of the allocations for arbitrary bytes (`PartSafe`). Refutations: more than 255 tile-parts, a tile without data, custom streams |
| C61 | `DivideModel` (number of tile-parts, bounds of the iterators per tile-part) | each tile-part visits a slice of the nested enumeration of C27; the slices are its concatenation. Refutations: inner steps repeat packets, uneven precincts, PCRL by position, RPCL |
| C62 | `PltModel` (packet length markers: room, writing, `write_sod`, reading), `PltSpec` | invariant over the packets: complete segments and the one begun; the room by counting lengths of more than three bytes, of which there are fewer than 2048 in 2^32 bytes of data. Refutations: the room is computed modulo 2^32 (the buffer is overrun), unfinished lengths are accepted |
| C63 | `CodecModel` (`encode_tile`, `decode_image`: header, tiles, tile-parts, packets, blocks, transforms and output put together), `CodecProofs`, `CodecInput`, `CodecTiles`, `CodecGather` | composition: C31 for the parameters, C41 for the way of the samples to the tile, C59 for the tile, C60 and C62 for the tile-parts, C42 for the output image; `two_tiles` proves the hypotheses of the theorem for a small image; findings: the slice of the plane made for a tile ends after the plane for tiles of the last row outside the first column; the width set when reading the header is not that of the reduced component |
| C64 | `WindowModel` (the 5/3 transform of a window on a sparse array, `opj_dwt_decode_partial_tile`), `WindowSpec` (sub-bands by equation B-15, wanted coefficients) | `WindowLine`: one line of the partial transform simulates the whole one where its inputs are there; `WindowAxis`: the margins suffice at every level; `WindowProofs`, `WindowTile`: invariant of the sparse array over rows, columns and levels. Only for at most 2^30 rows: offsets of eight rows are computed in 32 bits |
| C65 | `AreaModel` (which packets are read and which blocks decoded for an area, the resolution noted as decoded, the two paths of `opj_tcd_decode_tile`) | `AreaPackets`: skipping a packet changes only its own place; `AreaGeom`, `AreaJobs`: blocks, precincts and bands against the sub-bands of `WindowSpec`; `AreaComp`: every wanted coefficient is in a block that is decoded, and the highest resolution is always noted; `AreaTile`: both paths agree with the whole tile. Not modelled: reduced resolutions or layers, `used_component`, more than one progression |
| C66 | `RegionModel` (area asked for → tiles and output image, extent of a single tile; decoding the image with them) | `RegionAxis`: both ends of an axis, and that the tile range is what shares a pixel with the area; `RegionProps`. Not modelled: checks of the decoder's state |
| C67 | `RegionModel` (`decode_image_area`: header, area, tiles, output image) | `RegionTiles`: a tile of the area by C65; `RegionGather`: the output image from windows of tiles (C42), tiles without samples in the area change nothing; `RegionImage`: with C60, C63 and C66. Not modelled: what C63 and C65 leave out |
| C68,C69 | `HtModel` (readers of the segments of a high-throughput block: `frwd_*`, `rev_*`) over `HtSpec` (bits of a segment) | `HtBits`: a register holds the next bits of a list; `HtForward`, `HtBackward`; `HtReadProps`. A pointer is a position in the bytes of the block; the address of the block counts modulo 4 only. The block decoder around the readers: C74. |
| C70 | `HtModel` (`mel_*`; `mel_event` is the code the decoder repeats for each event) over `HtSpec` (`mel_syms`) | `HtMel`: register held high aligned; `HtMelEvents`: store of runs as a queue, one round of the decoding loop, events; `HtMelProps` |
| C71 | `HtModel` (`decode_init_uvlc`, `decode_noninit_uvlc`; the parts that are the same are shared) over `HtSpec` (`u_prefix`, `u_one`, `u_pair`) | `HtUvlcProps` |
| C72 | `HtModel` | `HtAlignProps`: invariant over reachable states of the readers |
| C73 | `HtLuts` (the two tables, copied) | `HtLutsProps`: computation over the tables, then for all words |
| C74 | `HtCupModel` (cleanup pass: `cup_decode`, `cup_block`) over `HtCupSpec` (contexts, predictor, code words and samples of a quad in its line, on lists of bits) | `HtCupVlc`: code words, events and u values from the readers' registers; `HtCupSamples`: samples of a quad; `HtCupPair`: masks of places; `HtCupLines`: what `line_state` and the samples hold; `HtCupTurn`: one pair of quads; `HtCupBlock`: lines and block; `HtCupProps`. The sixteen copies of the code for a sample are one definition. Not modelled: the SPP and MRP passes after it, `sigma1`, `sigma2`, more than one segment |
| C75,C76 | `PpxModel` (reading and merging of PPM and PPT segments) over `PpxSpec` (packs, cut into segments) | `PpxMerge`: segments are groups of parts that are not cut, each pass follows the packs through them, and back from an accepted first pass to packs; `PpxRead`: markers by index; `PpxProps` |
| C77 | `PackedModel` (packets with headers from PPM or PPT data, tiles with PPM) over `PackedSpec` (the encoder's packets in three parts, `c77_parts`) | `PackedProofs` as `PacketsProofs` for C57; `PackedProps`. Refutations: PPM headers of a tile that is not decoded, or of interleaved tile-parts, go to another tile |
| C78,C79 | `CmtModel` (CBD, MCT, MCC and MCO segments, set-up of a custom transform, copy of the default parameters to tiles; pointers between records carry the generation of their array) over `CmtSpec` (bytes of the segments, binary32 patterns of integers) | `CmtSafe`: invariant of all reachable parameters; `CmtFloat`; `CmtRound`; `CmtProps`. Refutations: a second collection is never used; 16-bit integer elements lose their sign; lengths wrap from 128 components on; the COD segment written is refused |
| C80 | `RateModel` (thresholds, layers, search, fixed allocation; float operations, and whether a trial run fits, are parameters) | `RateProofs`: invariant of the layers, views of trial runs; `RateProps`, with the contract of C58–C67 on rate allocation. Refutations: a layer is made although nothing fits, also when an empty one would; matrix entries above the precision give passes that were never coded, or are outside the array |
| C81 | `PocModel` (check of progression order changes, their copy to the tiles by the encoder) | `PocProofs`: which cells of the array are marked and looked at; `PocProps`. Refutations: later tiles get the entries of the first ones; the answer of the check is not used; indices wrap from 2^32 packets on |
| C82 | `TlmModel` (TLM segment, collection of the lengths, update at the end) over the reader of Annex A.7.1 in `TlmProps` | `TlmProps`: invariant of destination and buffer over tile-parts, progressions and tiles. Refutation: a progression counted with no tile-parts |
| C83 | `WriterModel` (output streams over `BufWriter` and callbacks) over a file given by contents, length and position in `WriterProps` | `WriterProps`: the buffer is invisible in the sum of destination and buffer, kept by every operation; induction over histories. Refutations: seeking without a skip callback, failed large writes, write callbacks that claim too much |
| C84 | `SetupModel` (set-up and validation of the encoder's parameters) over `HdrModel`, `CioModel`, `MathModel`; what is asked for is in `SetupProps` (`blocks_ok`, `asked_ok`, `asked`) | `SetupProps`: exponents from powers of two and halving, then C31's round trip of the main header. Refutations: precincts too small or too large, tile offsets, 30 bits, panics on layers, tiles and precincts |
| C85 | `TgtReuseModel` (node arrays with addresses, growth and reuse) over `TgtModel` | `TgtReuseProps`: a recycled tree holds the tree that `tgt_create` makes; number of nodes from a geometric sum; induction over tiles. Refutation: 32-bit sizes |
| C86 | `BlockReuseModel` (code-block arrays of precincts, their segments and chunks, with every access checked) | `BlockReuseProps`: an invariant of reachable storage, kept by tiles and uses |
| C87 | `ImageModel` (images with component arrays, data and profiles; a heap of live allocations) | `ImageProps`: references are counted; an invariant over histories |

Where the code does not satisfy a property, the theorem names end in
`_refuted` and carry a concrete witness; the positive theorem beside it states
the condition under which the property does hold. The manifest says "proved"
when the behaviour is characterised completely in this sense.

## Trusted base

* Coq 8.16.1 kernel (and `coqchk`).
* `Print Assumptions` of every theorem named in `MANIFEST.json` is printed at the
  end of the `*Props.v` files. Every one prints `Closed under the global context`:
  no axiom is used. (The compiled closure contains the seven parameters of the
  standard library's `Coq.ssr.ssrunder.Under_rel`, which `Lia`/`Zify` load;
  no theorem depends on them.)
* The transcription from Rust to Gallina is by hand; nothing was extracted.
* Rust standard library behaviour used by the modelled code (`str::parse`,
  `split`, `split_once`, `Path::join`, `i32::clamp`, `std::io` contracts, ...) is
  modelled from its documentation.
* Overflow: `wrapping_*` and `as` wrap. Plain `+`, `-`, `*` are modelled as in the
  release profile (wrapping) unless a comment says that the debug profile's panic
  is modelled. Shift counts of `wrapping_sh*`/release shifts are taken modulo the
  width.
* Memory: buffers are lists or total functions `Z -> Z`; allocation succeeds
  unless a comment says that failure is a value. Aliasing between the distinct
  buffers of a function does not occur, except where the model has an explicit
  heap (`Jp2Model`, samples of components).

## What is modelled

| files in `/repo` | model | comment |
|---|---|---|
| `src/iiif/*` parsers and URI decoding, `src/http.rs` request handling, `src/resolve.rs` | `LayaModel` | strings are byte strings; `f32` parsing is round-to-nearest-even on exact rationals; image source is a parameter |
| `src/lib.rs` accept loop, connection tasks, `HyperStream` | `LayaRuntimeModel` | transition system; the semaphore by its FIFO contract; transport by poll results |
| `bio.rs` | `BioModel` | complete |
| `tgt.rs` | `TgtModel`, `TgtReuseModel` | complete; shape and coding in the first, storage, pointers and reuse (`opj_tgt_init`) in the second; a node has 24 bytes |
| `t2.rs` comma code, number of passes | `T2CodesModel` | complete |
| `t2.rs` `encode_packet`, `read_packet_header`, `read_packet_data`, `skip_packet(_data)`, `init_seg`; pass rates of `t1.rs` | `T2PacketModel` | one precinct over its layers; strict mode; packed headers (PPM/PPT) are in `PackedModel`; not modelled: index structures, threshold calculation, non-strict mode, allocation failure; the high-throughput style is excluded in the theorems |
| `j2k.rs` marker segments: `write_*`/`read_*` for SIZ, COD, COC, QCD, QCC, POC, RGN, TLM, COM, SOT; `read_header_procedure`, `read_unk` | `HdrModel` | main header from SOC to the first SOT; handlers for CAP, CPF, PPM, CBD, MCT, MCC, MCO are a parameter (part 2 and packed headers); index structures and events dropped; allocation does not fail except of size 0; the encoder's IMF/cinema checks are not modelled |
| `mqc.rs` (+ `mqc_inl`) MQ and raw coders | `MqModel` | the 94-state table is transcribed; encoder buffers are `Z -> Z` |
| `mct.rs` reversible transform | `MctModel` | one sample triple; loops fold to a map |
| `dwt.rs` 5/3, encoder and whole-tile decoder | `DwtModel` | scalar paths; partial-tile (sparse) decoding, SIMD variants and thread partitioning are not modelled |
| `sparse_array.rs` | `SparseModel` | complete; reads and writes with strides |
| `math.rs` | `MathModel` | complete up to fixed-point multiplication |
| `cio.rs` | `CioModel` | integers and float bit patterns |
| `stream.rs` | `StreamModel`, `WriterModel` | reader and writer side; `BufWriter` is written out from the source of the standard library; the replies of the callbacks are left open |
| `j2k.rs:6835-7600`, `8157-8206`; `dwt.rs:638`, `1356` | `SetupModel` | profiles (cinema, IMF), progression order changes (C81), custom transforms (C78) and rates (C80) are left out; the float step sizes are an arbitrary function to fixed point |
| `tcd.rs:1220-1352`, `1467-1504`; `t2.rs:1488-1517`, `1661-1712` | `BlockReuseModel` | storage of decoder blocks from tile to tile; what is done with a block between tiles is any sequence of uses; a history ends at the first failure |
| `image.rs:55-83`, `159-255`, `283-330`, `367-372`, `419-480`; `j2k.rs:11804-11885` | `ImageModel` | only who owns what: sizes and contents are left out, allocations fail at will; the image structure itself (a box) is not counted; `opj_image_create` is a tile image with data for each component |
| `invert.rs` | `InvertModel` | floats are an abstract carrier; only control flow matters |
| `tcd.rs` DC shift, `tcd.rs` geometry, `tcd.rs`/`j2k.rs` tile data copies | `ShiftModel`, `GeomModel`, `TileDataModel`, `AssembleModel` | per axis where the axes are independent |
| `pi.rs` | `PiModel` | all five orders, decoder and encoder set-up |
| `pi.rs` `opj_pi_create_encode`, `j2k.rs` `opj_j2k_get_num_tp` | `DivideModel` | division of a tile into tile-parts; one progression, last pass, no cinema profile; a failed `assert!` is `None` |
| `j2k.rs` `opj_j2k_write_sot`, `read_sot`, `read_sod`, `need_nb_tile_parts_correction`, `read_tile_header`, `decode_tile`, `decode_tiles` | `PartModel` | handlers of the marker segments and the decoding of a tile's data are parameters; no code-stream index, no failing allocation, no single tile by number |
| `j2k.rs` `opj_j2k_write_plt_in_memory`, `write_sod`, `read_plt`, room for PLT | `PltModel` | the tile coder is a parameter with a contract (data within the room, their packets' sizes) |
| `j2k.rs` `read_ppm`, `merge_ppm`, `read_ppt`, `merge_ppt` | `PpxModel` | arrays of segments are lists; the merged buffer is the list of bytes written, with its size; allocation fails only for size 0 |
| `t2.rs` `read_packet_header` with packed headers | `PackedModel` | as `T2PacketModel`, `PacketsModel`; packets that are skipped are not modelled with packed headers |
| `j2k.rs` `read_`/`write_` of CBD, MCT, MCC, MCO; `setup_mct_encoding`; MCT part of `copy_default_tcp` | `CmtModel` | floats are bit patterns; allocation fails only for size 0; `as i32` of a float truncates and saturates; the application of the transform to samples is not modelled |
| `tcd.rs` `makelayer`, `makelayer_fixed`, `rateallocate`, `rateallocate_fixed` | `RateModel` | floats and their operations are parameters; a trial run is a function of the layers of all blocks; the blocks of the tile are one list; fixed allocation per block, its matrix entries are given |
| `j2k.rs` `check_poc_val`, progression order changes in `setup_encoder` | `PocModel` | allocation succeeds; the progression order of an entry is left out |
| `j2k.rs` `write_tlm`, `update_tlm`, `write_updated_tlm`, `calculate_tp`, loops of `write_first_tile_part`, `write_all_tile_parts` | `TlmModel` | the destination is a list of bytes with a position; the bytes of a tile-part are a parameter, their numbers too |
| `ht_dec.rs` segment readers, MEL and u decoders, cleanup pass; `t1_ht_luts.rs` | `HtModel`, `HtCupModel`, `HtLuts` | blocks of one pass; pointers are positions in the block, its address is a parameter; the sixteen copies of the code for a sample are one definition |
| `j2k.rs` `opj_j2k_encode`, `opj_j2k_decode`, `get_tile_data`; `image.rs` `comp_header_update` | `CodecModel` | reversible coding, whole image at full resolution; rate allocation and division into tile-parts are given with the tile (`run`); no choice of components, no limit on layers |
| `t1.rs` code-block encoder and decoder | `T1Model` | flag words as in the code; both coders of `MqModel` underneath; the decoder's inlined variants are one definition; distortion estimates, floating point dequantisation, the HT styles and threads are not modelled |
| hand-over of code-blocks `t1.rs`–`tcd.rs`–`t2.rs`; packet loops of `t2.rs` | `CblkModel`, `PacketsModel` | code-block data past its end reads as zeros; precincts as a function of resolution, component, number; the threshold-calculation pass, `resno_decoded` and index structures are not modelled |
| block loops of `t1.rs` over a tile, tile component offsets | `TileModel` | reversible coding, whole tiles; empty bands are left out; not modelled: area of interest, fewer resolutions than coded, threads |
| `tcd.rs` `encode_tile`, `decode_tile` (order of the stages), `dwt.rs` explicit step sizes | `SampleModel` | reversible coding, whole tiles; rate allocation is a parameter of the statements (C80 shows that it meets their contract); custom component transforms (part 2) are not modelled |
| `jp2.rs` boxes, header reader and writer, encoder set-up, colour post-processing; `image.rs` component ownership | `Jp2Model` | source and destination streams are byte lists; `checks` selects the debug profile; the code-stream is opaque; JPIP index boxes, UUID and resolution boxes are skipped by the code as unknown |

## Not modelled

* Lossy arithmetic on floats (9/7 wavelet, ICT): floating point rounding makes
  exact reconstruction false by design.  In rate allocation floats are opaque.
* The significance propagation and refinement passes of high-throughput blocks
  (`ht_dec.rs:2077-2812`).
* glommio/hyper/tokio internals; only the glue in `src/lib.rs` is modelled.
* Codestream indexing, printing of information (`*_dump`), the C API wrappers.
* Thread pools: the sequential paths are modelled.

## How to read seeded/LOG.jsonl

Most lines were written by a script that edits one definition in a scratch copy and rebuilds it.

- `theorems_failed` is the declaration, often a lemma, at which a proof script stopped.
- `properties_lost` lists all theorems that were not rebuilt because of that. Coq stops at the first error, so these include theorems that may well hold of the edited definition.
- A script that breaks does not show that a theorem is false: it may only depend on the form of the definition. Such a line says that the proof as written does not go through, not that the theorems exclude the edit.
- An edit that leaves a claim false and its theorems provable can therefore be hidden behind a broken script. One such case is known: allocating no data (`ImageModel.step`) was counted as found while `c87_makes` spoke only of the function and not of the step. It was restated.
- For C87 the edits were decided again without proofs: instances of the theorems were computed on each edited model. Of 66 edits 63 make some instance false; three make none false and break no claim, and are logged so. For C86 likewise: of 51 edits 47 make some instance false, and four break no claim. Five of the 47 (chunks never added, other fields of a block cleared) were excluded by no theorem before `c86_keeps`. For C85 reading the theorems showed that keeping the old address of moved nodes was excluded by none of them, although a script broke; `c85_place` was added for it. The other edits of C85, and the lines of all other properties, have not been decided in this way.
- Edits that were not decided (time-outs, edits that do not compile or do not match) are not logged, and equivalent ones only in part, so the log gives no rate of detection.
