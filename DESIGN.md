# Formal model of keramics in Rocq (Coq 8.16.1)

## Conventions of the model

* Bytes and machine words are natural numbers of type `N` (or `Z` where the code
  uses signed arithmetic). Buffers are `list N`. `wf_bytes l` says every element
  is below 256.
* A Rust function returning `Result<T, ErrorTrace>` is modelled by a function
  returning `res T`, with three outcomes: `Ok v`, `Err` (the code returned an
  `Err`) and `Panic` (the code panicked: index or slice out of bounds,
  arithmetic overflow or underflow, shift by too much, division by zero,
  `unwrap` on `None`, `todo!()`).  Arithmetic is modelled as in a build with
  overflow checks (the profile used by tests); where the code uses
  `wrapping_*` or relies on masks the model wraps.
* A function that changes its object and can fail half way returns the new object
  together with the outcome, so that what an error leaves behind is in the model.
* Loops are structural recursion, folds, or recursion on explicit fuel. Running out
  of fuel is `Panic`, so a theorem that excludes `Panic` shows that the fuel
  suffices, and that the loop ends.
* Error messages, tracing (`#[cfg(feature="debug")]`), `Arc<RwLock<..>>`
  plumbing and derive-generated pretty printers are not modelled. Concurrent use
  is not modelled: every method of a shared object takes its lock for the whole call.
* One area is spread over `X_model.v` (definitions with /repo citations),
  `X_spec.v` (small independent specification), `X_proofs.v` (lemmas), and
  `P_Cnn.v` (the theorems of property Cnn, with `Print Assumptions` and concrete
  cases that meet their hypotheses).
* A property that turns out to be false of the code is kept with its full
  statement, refuted by a theorem `..._refuted` that exhibits a concrete input (or
  says for which inputs it always fails), and the strongest true part is proved
  under the suffix `_partial`.

## Trusted base

* Coq's kernel (8.16.1, including `vm_compute`), and `coqchk`, which checks all the
  compiled files again without the virtual machine.
* The hand translation from Rust to Gallina. Every model definition cites the
  file and lines it models; simplifications are named in that comment.
* The specifications in the `*_spec.v` files, which are meant to be read.
* Data taken over from outside of the code: the published code page tables in
  `CodePages_standard.v` (the mapping tables that the Unicode Consortium publishes, as
  shipped with the codecs of CPython, not from /repo). The tables of the code itself, in
  `CodePages_tables.v`, `Hash_tables.v` and `Case_model.v`, were extracted
  mechanically from /repo.
* Axioms: none. See the last section.

## Plan per property

| id | what is modelled | how it is proved |
|----|------------------|------------------|
| C01 | `Adler32Context` incl. `mod_65521` and the 5552 byte inner loop | invariant: unreduced accumulators stay below 2^32 and are congruent to the RFC 1950 sums; induction on chunks |
| C02, C03 | table generation and both update loops | linearity of the register over xor; generic bitwise lemma by induction |
| C04, C05 | context records with block buffer of the five hashes | invariant (state = fold of compression over complete blocks, buffer = rest), refinement to pad-then-fold |
| C06 | `AdcContext::decompress` | refinement to an LZ77 token semantics, round trip over all token lists, no-panic, buffer independence |
| C07 | `LzvnContext::decompress` | no-panic; determinism, refuted for distance 0 |
| C08 | `Lznt1Context::decompress` | no-panic, refinement to token semantics |
| C09 | `HuffmanTree` | canonical code specification of RFC 1951, decode of encode |
| C10 | stored/fixed/dynamic block decoder | round trip over token lists; no-panic |
| C11 | zlib wrapper around C10 | soundness of the checksum comparison |
| C12 | bzip2 streams | inverse-transform theorems per stage, composed to whole streams; classification of panics |
| C13 | base64 decoder | round trip by induction over 3-byte groups |
| C14 | UTF-8 decoder | round trip for all scalar values, well-formedness of accepted input |
| C15, C48 | tables extracted mechanically from /repo | complete evaluation over the (finite) tables plus a range argument for all code points |
| C16 | `Uuid` | round trip over all field values |
| C17, C47 | `Ucs2String`, `Utf16String`, `ByteString` | order laws, NUL termination, injectivity |
| C18, C19 | calendar conversion | closed form day number specification, induction over years |
| C20, C21, C45 | stream state machines | simulation with an ideal file over operation lists |
| C22 | formatters | structural induction over lines |
| C23 | `LruCache` | invariant over operation lists |
| C24 | `BlockTree`, `BlockTreeNode` | refinement to a partial map over insert histories |
| C25-C30, C33, C34, C42 | image readers over the block tree | simulation with the abstract content function, invariant over read histories |
| C31 | data run decoder | round trip over all run lists |
| C32 | fix-ups | apply after protect is the identity |
| C35 | FAT entries, chains, block stream | packing arithmetic; termination by a visited-set measure |
| C36 | ext extents and indirect blocks | induction on tree depth |
| C37, C38, C49 | volume systems | walk termination, offset formula, exact acceptance |
| C39 | signature scanner: scan tree, skip tables, chunked scan | soundness of the reported match; completeness per placement; the shipped signature sets evaluated symbolically |
| C40, C44 | path handling | list induction |
| C41 | extension naming | arithmetic over the three regimes |
| C43, C46 | byte order macros and header readers | the exact answer on every byte list |
| C50 | FAT directories, root, paths, identifiers | each run of records is read as its items, by induction; listing order from the sorted map |
| C51 | ext inodes | the exact answer on every byte list |
| C52 | ext volumes | group loop invariant, block tree of descriptors, records by induction, invariant over all obtained entries, paths by induction |
| C53 | NTFS MFT entries, attributes and data streams | exact answers per attribute; chains by induction with an invariant on the collection |
| C54 | NTFS volumes, files, directory indexes, paths | index trees by mutual induction over their items, MFT block tree, paths by induction |
| C55 | `LzxContext::decompress` | bits left as an invariant, induction over tokens, length instructions and blocks; totality: a block advances or fails at the end of the data |
| C56 | `LzfseContext::decompress` | the backward bit reader as the bzip2 reader of the reversed bytes; decoder tables against the encoding step of finite state entropy coding; induction over literals, triples and blocks; totality by postconditions and a growing offset |
| C57 | `UdifFile` with its four decompressors | C30 with the decompressors in place of its parameter; each chunk by C06, C11, C12 or C56 |
| C58 | `NtfsWofCompressedStream` | chunk of an offset by induction on the cut, table entries by induction, cache invariant with distinct offsets, simulation with the file |
| C59 | the VFS file systems of volume systems and images | parsing of numbers against digit texts by induction, then cases of the path |
| C60 | `VfsFinder`, `VfsFileEntriesIterator` | rounds of the inner loop by induction over the tree and its forests, then from rounds to calls; for C59's file systems the tree is built from their entries |
| C61 | `VfsContext`, `VfsResolver`, `VfsLocation` | invariant of the cache over the history: what is kept under a key is what opening gives for every location with that key |
| C62 | `calculate_md5`, `calculate_hash_from_reader`, `write_data_stream`, `format_as_timestamp`, `format_as_bytesize` | induction over the pieces a reader gives, then C05 and C22; decimal texts by induction over digits |
| C63 | `DisplayPath`, `get_file_mode_string`, the line of `print_file_entry_as_bodyfile` | what is shown for a code point cannot be taken for anything else (prefix code), then induction over names and paths; bits of the mode one by one |
| C64 | `VfsScanner` | what is found in a place has a lower rank than the place, so four levels are enough; the tree by cases on the medium and induction over the partitions; a number has one decimal text |
| C65 | `EwfHeader`, `EwfHeader2`, the object storage | lines and words by induction over the text, values by induction over the pairs with the values so far; zlib by C11 |
| C66 | `FakeFileSystem`, `FakeFileEntry` | induction over the history with the data at each path; paths by C44 |
| C67 | `OsFileResolver`, `FakeFileResolver`, `VfsFileResolver`, `VfsPath::new_with_join`, `PathBuf::push` on Unix | induction over the components; the file system is a parameter |
| C68 | `OsFileEntry` on Unix, the OS branch of `VfsFileSystem` | the operating system is a map from paths to files and links; case analysis of modes and times, induction over links |
| C69 | `NtfsJunctionReparseData`, and `NtfsReparsePoint` as in C53 | the readers of 16-bit numbers and texts of C43 |
| C70 | `export_data_stream_from_scan_node` of the export tool | mutual induction over trees; resolver and writer are parameters |

## Modelled code

All paths are below `/repo`.

* `keramics-checksums`, `keramics-hashes`: all of it.
* `keramics-compression`: `adc`, `lzvn`, `lznt1`, `huffman`, `deflate`, `zlib`, `bzip2`, `lzx`, `lzfse`.
* `keramics-core`: `data_stream`, `fake_data_stream`, `os_data_stream` (as a list of bytes), `formatters`, the macros.
* `keramics-datetime`: FILETIME, POSIX and FAT times.
* `keramics-encodings`: `base64`, `utf8`, and all single byte code pages.
* `keramics-types`: byte order macros, `Uuid`, `Ucs2String`, `Utf16String`, the readers of `ByteString`, the case mapping table.
* `keramics-sigscan`: all of it, and `keramics-formats/src/scanner.rs` with the signatures of the tools and of the VFS.
* `keramics-formats`: `block_tree`, `block_tree_node`, `lru_cache`, `path_component`; `apm`, `gpt`, `mbr`; `sparseimage`, `sparsebundle`, `udif`, `vhd`, `vhdx`, `qcow`, `ewf`; `fat`; `ext`; `ntfs`.
* `keramics-vfs`: string paths; the file systems and file entries of `apm`, `gpt`, `mbr`, `qcow`, `vhd`, `vhdx`, `ewf`, `sparseimage` and `udif`; `fake`; `os` on Unix; `file_resolver`; `finder`; `scanner`; `iterators`; `context`, `location` and the types.
* `keramics-tools`: escaping and joining of `display_path`, modes and bodyfile lines of `image_tool`, `bodyfile`, `hasher`, `writer`, `formatters`, the digest loop of `hash_tool` and the export loop of `export_tool`.

## Not modelled

* `keramics-layout-map` (procedural macro run at compile time): the readers it
  generates are modelled as what they read.
* The command line tools' argument handling and output, `std::fs` access, error texts.
* `lzxpress` of `keramics-compression`: declared in its `lib.rs`, but the source is not in /repo
  (a parameter of the model of overlay filter files). Windows code page 932.
* The property list parser (a parameter of the UDIF model; for sparse bundles its values are
  given), the VHDX parent lookup, QCOW compression and snapshots,
  when EWF header sections are found (whether they can be
  read is a parameter), EWF hashes and error2 entries (read but not kept).
* FAT names in other encodings than ASCII; ext names in another encoding than that of
  the volume; values of ext attributes.
* The other VFS file systems (the wrappers of ext, FAT and NTFS), opening of parent file systems by the VFS, locks, the VFS resolver and how the VFS scanner opens files. File entries are
  taken to answer the same whenever they are asked.

## What the refutations found

* UUIDs: `+` is accepted in numbers, multi-byte characters panic. UCS-2 data of odd length and malformed UTF-16 panic. Base64, UTF-8 and code page decoders accept more or less than their standards.
* The LRU cache is first-in first-out. The block tree misplaces ranges that cross its units. The fake stream repeats its data. Negative seeks are accepted.
* LZVN distance 0, DEFLATE blocks without distance codes, the checksum at the end of zlib data, bzip2 streams of more than one block or of large blocks; LZX contents under 6 bytes, unused size codes, padding of uncompressed blocks; LZFSE tables that end early, version 1 blocks, blocks with little data.
* Times: years from 10000 on panic, POSIX times before 1970 are wrong.
* File names: other than ASCII panic or are split wrongly; backslashes are doubled; the empty path is the root; partitions and layers have further names such as `apm01` and `apm+1`; the finder does not return on directories that contain themselves; the context ignores the type of a location when something in the same place is open, and the text of a location has the type and the parent swapped.
* Tools: times before 1970 are shown wrongly in bodyfiles, FAT times are an error; all exported streams go to one file; sizes from 2^60 on panic; names of the operating system and bytes that do not decode panic when shown, bars and line ends break the lines of bodyfiles; scans of sparse images and UDIF images fail, volume systems in partitions are not found. EWF images: the notes of header2 sections are lost, their dates from 2038 on panic, headers that compress too well are an error. The fake file system replaces files although adding fails, and its readers share a position. A backing or parent file name that is an absolute path makes the OS file resolver open that file, wherever the image is. OS file entries never show links, fail for sockets, and have wrong times for whole seconds from 2038 on.
* NTFS: names of junctions are never read, in use flag ignored, attributes of size 0 never end, content outside its attribute, overflow of cluster numbers, runs without clusters, reads across compressed units, entries of 224 bytes, attribute list entries of size 0, short names, cyclic indexes, values smaller than their key; tables of overlay filter files with wrong offsets.
* FAT: reserved bits, long chains, reserved cluster numbers, start clusters above 65535, orphaned long names, free records, 0x05, lower case flags, format detection.
* ext: overfull nodes, unsorted extents, block size exponent 22, sizes and times of inodes, checksum seeds, revision 0, copies of descriptors, holes in directories, inline data, device numbers.
* MBR: offsets of logical partitions, sector size. GPT: checksums of zero, usable area, overflows.
* Sparse images and bundles: truncated and missing bands. VHD: bit order of bitmaps, small blocks, parents. VHDX: chunks without flags, missing bitmaps, zero blocks. QCOW: missing tables, zero flags, compressed clusters, open panics. UDIF: ranges across 8 MiB. EWF: more than 16 segments, equal offsets, open panics.
* Signature scanner: building that never ends, short patterns and buffers, equal patterns, dependence on chunks.
* Formatters: hexdumps with a last row of one byte, arrays of more than 16 elements, empty arrays.

## Theorems and what they rest on

`Print Assumptions` stands below every theorem in the `P_Cnn.v` files; for each of
them it prints "Closed under the global context": no axiom at all, neither our own
nor one of the standard library. `coqchk` lists in addition the seven constants of
`Coq.ssr.ssrunder.Under_rel` (`Over_rel`, `Under_rel_from_rel`, `over_rel`,
`over_rel_done`, `Under_rel`, `Under_relE`, `under_rel_done`). They belong to a
standard library module that is loaded with the tactics; no theorem depends on
them.

| property | status | theorems | what is covered and what is not |
|---|---|---|---|
| C01 Adler-32 is the RFC 1950 checksum and is independent of chunking | proved | `C01_adler32_any_chunking`, `C01_adler32_standard` | all initial values, data and chunkings; finalize resets |
| C02 Forward CRC-32 equals the bit-by-bit polynomial remainder, independent of chunking | proved | `C02_crc32_any_chunking` | all polynomials, initial values, data and chunkings; context reusable after finalize |
| C03 Reflected CRC-32 equals the bit-by-bit polynomial remainder, independent of chunking | proved | `C03_reversed_crc32_any_chunking` | all polynomials, initial values, data and chunkings; context reusable after finalize |
| C04 Hash contexts: the digest does not depend on how data is split over update calls | proved | `C04_digest_chunk_independent` | MD5, SHA-1, SHA-224, SHA-256, SHA-512; total length below 2^61 bytes (above it finalize overflows the 64-bit bit count) |
| C05 Hash contexts compute the standard functions | proved | `C05_digests_are_standard` | specification written from RFC 1321 and FIPS 180-4, with constants derived from primes and the sine series |
| C06 ADC decompression is faithful, memory safe and deterministic | proved | `C06_no_panic`, `C06_valid_encodings_decode`, `C06_output_is_the_meaning`, `C06_previous_content_irrelevant` |  |
| C07 LZVN decompression is memory safe and its output is determined by the input | partial | `C07_no_panic`, `C07_valid_encodings_decode`, `C07_output_is_the_meaning_partial`, `C07_deterministic_partial`, `C07_deterministic_unless_zero_distance_partial`, `C07_deterministic_refuted` | memory safe on every input; determined by the input unless a token copies from distance zero, which is accepted and returns the previous content of the buffer (witness) |
| C08 LZNT1 decompression is memory safe, deterministic and faithful | proved | `C08_no_panic`, `C08_valid_encodings_decode`, `C08_previous_content_irrelevant` |  |
| C09 Huffman decoding inverts canonical Huffman coding | proved | `C09_decodes_code_words`, `C09_decodes_code_words_from_any_source`, `C09_decodes_only_code_words`, `C09_over_subscribed_rejected`, `C09_accepts_the_rest`, `C09_build_no_panic` | canonical codes of RFC 1951 with any largest code size; incomplete codes are accepted |
| C10 DEFLATE decompression inverts valid DEFLATE streams and is safe on invalid ones | partial | `C10_valid_streams_decode_partial`, `C10_no_panic`, `C10_previous_content_irrelevant`, `C10_valid_streams_decode_refuted`, `C10_truncated_stream_accepted` | all sequences of stored, fixed and dynamic blocks; memory safe and terminating on every input; a dynamic block without any distance code, allowed by RFC 1951, is rejected (witness) |
| C11 zlib detects corrupted data | partial | `C11_checksum_with_following_data_partial`, `C11_checksum_ignored_at_the_end`, `C11_detects_corruption_refuted`, `C11_no_panic` | the checksum is compared only if something follows the stream; for a stream on its own it is never looked at (proved in general, with a witness) |
| C12 bzip2 decompression undoes the block transforms and never panics | partial | `C12_block_transforms_undone`, `C12_stream_result`, `C12_valid_stream_decodes_partial`, `C12_no_room`, `C12_large_blocks_rejected`, `C12_several_blocks`, `C12_panics_are_overflows_partial`, `C12_no_panic_refuted`, `C12_every_stream_decodes_refuted` | Proved: the exact result of decompressing any stream of blocks of up to 900000 bytes with code words of up to 19 bits; the inverse of the Burrows-Wheeler transform and of the first run-length coding for blocks of any size; one-block streams decode to their data; on any bytes a panic comes from one of three overflows and a result fits the buffer. Refuted: code words of 20 bits, several blocks and blocks over 100000 bytes are rejected, and the three overflows panic. |
| C13 Base64 decoding inverts RFC 4648 encoding | proved | `C13_decode_encode`, `C13_decode_encode_white_space`, `C13_decode_accepts`, `C13_white_space_accepts`, `C13_rejects_outside_alphabet`, `C13_small_buffer_panics`, `C13_strict_decoding_refuted` | round trip for all byte strings and all placements of white space (white space only through the skipping stream used for property lists); acceptance characterised exactly, laxer than RFC 4648 after the padding |
| C14 UTF-8 decoding inverts UTF-8 encoding and accepts only well-formed UTF-8 | partial | `C14_decode_encode`, `C14_next_encode`, `C14_no_panic`, `C14_accepts_well_formed_partial`, `C14_rejects_ill_formed_refuted`, `C14_beyond_unicode_refuted`, `C14_error_repeats_refuted`, `C14_to_string_panics` | round trip and totality proved for all inputs; acceptance is exact except for c0/c1 over-long forms and f4 90+, which are accepted (witnesses); after an error the iterator repeats it for ever |
| C15 Single byte code pages: encode and decode are mutually inverse | partial | `C15_mutually_inverse_partial`, `C15_strings_partial`, `C15_element_by_element`, `C15_no_panic`, `C15_iso8859_2_partial`, `C15_iso8859_4_partial`, `C15_arabic_farsi_ascii_partial`, `C15_iso8859_2_4_refuted`, `C15_arabic_farsi_ascii_refuted` | exact for 31 of 36 pages, all bytes and all code points; ISO-8859-2/4 encode four code points as 0x1a, Mac Arabic/Farsi and ASCII decode bytes they do not encode (witnesses) |
| C16 UUID text and byte forms round trip | partial | `C16_to_string_canonical`, `C16_text_round_trip`, `C16_be_bytes`, `C16_le_bytes`, `C16_short_bytes_panic`, `C16_accepts_exactly_uuids_partial`, `C16_no_panic_on_ascii_partial`, `C16_rejects_malformed_refuted`, `C16_no_panic_refuted` | round trips proved for all UUIDs; rejection of malformed strings holds for ASCII strings without '+': a witness with '+' is accepted and one with multi-byte characters panics |
| C17 UCS-2 strings: comparison is a total order and reading stops at the terminator | proved | `C17_reads_to_terminator`, `C17_read_data_appends`, `C17_from_slice`, `C17_byte_string_read_data`, `C17_odd_length_panics`, `C17_compare_lexicographic`, `C17_total_order`, `C17_case_folding`, `C17_utf16_encode`, `C17_utf16_decode`, `C17_utf16_malformed_panics` | readers for buffers of an even length; an odd length without terminator panics, and so does converting malformed UTF-16 to a string (both proved) |
| C18 Date and time conversion is the proleptic Gregorian calendar | partial | `C18_filetime`, `C18_filetime_from_bytes`, `C18_posix32_after_epoch_partial`, `C18_posix64_after_epoch_partial`, `C18_year_before_epoch_partial`, `C18_before_epoch_refuted`, `C18_no_panic_refuted` | FILETIME: proved for every value; POSIX: proved for every time from the epoch on, false before it (day 0 and off by one), and formatting panics from year 10000 on |
| C19 FAT date time unpacking | proved | `C19_date`, `C19_time`, `C19_time_10ms`, `C19_unpacks_what_was_packed`, `C19_from_bytes` |  |
| C20 Window streams (range stream, partitions) present exactly the window | proved | `C20_window_is_a_file`, `C20_read_is_slice_of_source`, `C20_sequential_reads_concatenate`, `C20_range_stream_is_the_tail`, `C20_interleaving_invisible` | range stream, MBR, GPT and APM partitions; windows may reach past the end of the source; negative seeks see C45 |
| C21 The fake data stream presents its data followed by zeros | partial | `C21_size_within_data_partial`, `C21_open_fake_data_stream`, `C21_reads_on_one_side_partial`, `C21_crossing_read_repeats_data`, `C21_padding_refuted` | exact when the size does not exceed the data and for reads on one side of the end of the data; every read across it repeats the data instead of zeros (proved, and a witness) |
| C22 Hexdump and array formatting are total and complete | partial | `C22_hexdump_shows_the_data_partial`, `C22_hexdump_one_byte_row_refuted`, `C22_rows_determine_the_data`, `C22_format_as_string`, `C22_array_partial`, `C22_array_refuted` | Hexdumps of all byte strings are total and show all the bytes, grouping included; a last row of one byte has no characters and no end of line. Arrays of up to 16 elements or a multiple of 16 are shown complete; others repeat elements and the empty one panics. |
| C23 LRU cache: bounded, returns what was inserted, evicts least recently used | partial | `C23_bounded`, `C23_coherent`, `C23_get_after_insert`, `C23_eviction_partial`, `C23_least_recently_used_refuted`, `C23_reinsert_loses_entry_refuted`, `C23_capacity_zero_panics` | bounded, coherent and get-after-insert proved for all histories; eviction is FIFO, not LRU: the least-recently-used clause is refuted by a witness; capacity 0 panics |
| C24 Block tree behaves as a map from offsets to the range inserted over them | partial | `C24_flat_is_slot_map`, `C24_levelled_is_slot_map_partial`, `C24_lookup_after_accepted_inserts_partial`, `C24_whole_blocks`, `C24_misplaced_insert_refuted`, `C24_order_dependence_refuted`, `C24_no_panic_refuted` | proved for the flat geometry (all file-system streams), for whole-block inserts (VHD, VHDX, EWF, sparse image) and for inserts inside one group of units of one level; outside those the property is false: witnesses for misplacement, order dependence and panics |
| C25 Sparse image: reads return the virtual disk content | proved | `C25_open`, `C25_reads_are_the_disk`, `C25_truncated_refuted` | all band arrays and all histories of reads and seeks; a truncated file repeats data (witness) |
| C26 Sparse bundle: reads return the virtual disk content | partial | `C26_open`, `C26_reads_are_the_disk_partial`, `C26_missing_band_refuted`, `C26_short_band_refuted` | proved with all bands there; false for missing and short bands, with witnesses. The plist parser and the file resolver are not modelled. |
| C27 VHD: reads return the virtual disk content | partial | `C27_open`, `C27_open_image`, `C27_reads_are_the_disk_partial`, `C27_bitmap_partial`, `C27_bit_order_refuted`, `C27_history_refuted`, `C27_small_blocks_refuted`, `C27_tiny_blocks_refuted`, `C27_small_parent_refuted`, `C27_layers_refuted`, `C27_cycle_refuted` | Opening files and chains of parents is characterised exactly; all histories of reads on images of any number of files return the virtual disk when each block has all or none of its sectors stored and blocks are multiples of 2 MiB. The rest is refuted with witnesses: bitmap bit order, dependence on the history of reads, bitmap padding, parent cycles, shared positions of layers. |
| C28 VHDX: reads return the virtual disk content | partial | `C28_open`, `C28_reads_are_the_disk_partial`, `C28_bitmap`, `C28_chunks_refuted`, `C28_no_bitmap_refuted`, `C28_zero_block_refuted`, `C28_flags_refuted`, `C28_history_refuted` | Every chain of files whose blocks are stored as a whole or not at all reads as the virtual disk, with the chunk interleaving of the table. Not true of the code, with witnesses: images of more than one chunk without flags, missing bitmaps, zero blocks over a parent, flags 3, mixed blocks after whole ones. Header, region table, metadata table and parent lookup are not modelled. |
| C29 QCOW: reads return the guest-visible content | partial | `C29_open`, `C29_open_image`, `C29_reads_are_the_disk_partial`, `C29_no_table_refuted`, `C29_no_last_table_refuted`, `C29_zero_flag_refuted`, `C29_short_backing_refuted`, `C29_compressed_refuted`, `C29_open_refuted`, `C29_own_backing_refuted`, `C29_history_refuted` | Opening files and chains of backing files is characterised exactly, panics included; all histories of reads on images of any number of files return the guest-visible content when all level 2 tables are there and entries have no zero or compression flag. The rest is refuted with witnesses. Compression and snapshots are not modelled. |
| C30 UDIF: reads return the image content | partial | `C30_open`, `C30_reads_are_the_content_partial`, `C30_raw_reads`, `C30_crossing_range_refuted`, `C30_long_range_refuted`, `C30_size_refuted`, `C30_zero_range_at_end_refuted`, `C30_history_refuted` | Every opened image has consecutive tables and ranges; every read history of an image whose ranges stay within groups of 16384 sectors returns the concatenation of raw, zero and decompressed (ADC, zlib modelled; bzip2 and LZFSE a parameter) ranges. Refuted: ranges crossing a multiple of 8 MiB make open panic, zero ranges of more than 8 MiB are rejected, sizes overflow, zero ranges at the end of the fork are rejected, compressed ranges that share their data offset depend on the read history. The property list parser is a parameter. |
| C31 NTFS data runs decode to the runs that were encoded | partial | `C31_decodes_what_was_encoded`, `C31_no_panic_partial`, `C31_no_panic_list_partial`, `C31_no_panic_refuted` | every list of runs in every field width decodes to itself; arbitrary bytes panic only when the sum of cluster numbers leaves the signed 64-bit range (witness) |
| C32 NTFS fix-up restores protected records | proved | `C32_restores_protected_records`, `C32_torn_records_rejected`, `C32_no_panic` | any number of sectors of 512 bytes with the array in the first sector |
| C33 NTFS non-resident data: reads return the file content | proved | `C33_reads_are_the_content`, `C33_from_the_encoded_runs`, `C33_empty_run_panics` | all histories of reads and seeks; runs of no clusters, which the encoding can express, panic (witness) |
| C34 NTFS compressed data: any read within the file succeeds and returns the decompressed content | partial | `C34_reads_are_the_content_partial`, `C34_allocated_reads`, `C34_crossing_read_refuted`, `C34_size_refuted` | Opening succeeds and all histories of seeks and of reads that are aligned to the compression unit, stay within a unit or start in a completely allocated unit answer as a file of the decompressed units. Refuted: a read that starts inside a compressed unit and ends after it panics; the stream ends at the valid data size instead of the data size. Resident attributes and a leftover that is no whole unit are outside the theorem. |
| C35 FAT allocation table entries and cluster chains | partial | `C35_entry`, `C35_entry_fat32_partial`, `C35_reserved_bits_refuted`, `C35_reads_follow_the_chain`, `C35_terminates`, `C35_cycles_rejected`, `C35_longer_chain_rejected` | FAT12 and FAT16 entries are read as defined, every history of reads of an opened file equals the clusters in order, the walk ends without a panic and cycles are rejected. FAT32: the four reserved bits are taken as part of the number, with a witness; a chain longer than the size needs cannot be opened, with a witness. |
| C36 ext block maps: the block ranges describe exactly the file's block map | partial | `C36_block_map`, `C36_block_map_reads`, `C36_extents`, `C36_extents_reads`, `C36_extents_panic_only_if_overfull_partial`, `C36_no_panic_refuted`, `C36_malformed_extents_refuted` | Block map: for every content the ranges are those of the map, or a block of numbers is outside the volume. Extents: for every tree of sorted extents the ranges are those of the extents; reads of both equal the blocks in order. Reading ends for all bytes. False for malformed extents: a node with more entries than it has room for panics (shown to be the only panic), empty and unsorted extents are accepted, with witnesses. |
| C37 MBR logical partitions have the offsets the format defines | partial | `C37_partitions_partial`, `C37_partitions`, `C37_terminates`, `C37_cyclic_rejected`, `C37_sector_size`, `C37_second_logical_refuted`, `C37_sector_size_refuted` | Proved for every disk with none or one extended boot record; with more, the offsets of logical partitions are relative to the first record, not to the one with the entry, so they are wrong (witness). Walking ends without a panic for every disk and cyclic chains are rejected. The sector size guessed without an extended partition can be wrong (witness). |
| C38 GPT integrity | partial | `C38_accepted`, `C38_checksums_partial`, `C38_accepts`, `C38_sector_size`, `C38_partitions_partial`, `C38_zero_checksum_refuted`, `C38_outside_area_refuted`, `C38_no_panic_refuted` | What is accepted is characterised exactly and the entries are those of the table. False: stored checksums of zero are not verified, the last usable sector is not looked at, and block numbers can overflow, with witnesses. |
| C39 Signature scanner is sound and complete | partial | `C39_reported_signatures_are_present`, `C39_scan_total_partial`, `C39_some_present_signature_is_reported_partial`, `C39_present_signature_is_reported_partial`, `C39_single_unbound_signature_is_reported_partial`, `C39_format_scanners`, `C39_build_ends_refuted`, `C39_build_prefixes_refuted`, `C39_scan_total_refuted`, `C39_equal_patterns_refuted`, `C39_all_present_refuted`, `C39_buffers_refuted`, `C39_unbound_refuted`, `C39_small_stream_refuted` | Soundness for all signature sets and chunkings; completeness for signatures at a fixed place with distinct patterns and for a single signature without one; the shipped scanners for all contents of more than 520 bytes. Refuted with witnesses: building may not end, panics for one-byte patterns and buffers, equal patterns are lost, one of several present signatures is reported, dependence on chunks, patterns without a place, small streams. |
| C40 File name splitting | partial | `C40_splits_partial`, `C40_no_extension_partial`, `C40_ascii_names`, `C40_non_ascii_first_panics`, `C40_non_ascii_extension_wrong`, `C40_no_panic_refuted`, `C40_file_system_names`, `C40_file_system_names_no_panic` | proved for ASCII names and for the names of the ext, FAT and NTFS file systems; false for other names, whose character index is used as a byte index |
| C41 EWF segment file naming | proved | `C41_follows_the_sequence`, `C41_distinct`, `C41_limits` |  |
| C42 EWF: reads return the acquired media, independent of caches | partial | `C42_reads_are_the_media_partial`, `C42_more_segments_refuted`, `C42_segments_history_refuted`, `C42_same_offset_refuted`, `C42_open_refuted`, `C42_size_refuted`, `C42_padding_refuted`, `C42_one_volume` | Images of at most 16 segment files whose compressed chunks start at different offsets open, and all read and seek histories return the media. Refuted beyond that: with more segment files reads from those evicted from the cache always fail; equal offsets in two segment files make reads depend on the history; open can panic; the number of sectors is cut to 32 bits; a padded short last chunk is rejected. Header and header2 parsing is abstract. |
| C43 Parsers of fixed layouts are total on arbitrary data | partial | `C43_ntfs_structures`, `C43_ntfs_boot_record_partial`, `C43_ntfs_boot_record_refuted`, `C43_ntfs_attribute_list_partial`, `C43_ntfs_attribute_list_refuted`, `C43_ext_structures`, `C43_ext_superblock_partial`, `C43_ext_superblock_refuted`, `C43_fat_structures`, `C43_vhdx_structures`, `C43_vhdx_metadata_table_partial`, `C43_vhdx_metadata_table_refuted`, `C43_vhdx_parent_locator_partial`, `C43_vhdx_parent_locator_refuted`, `C43_image_structures`, `C43_ewf_table_partial`, `C43_ewf_table_refuted`, `C43_qcow_header_partial`, `C43_qcow_header_refuted`, `C43_partition_structures`, `C43_signatures` | For 58 header structures of NTFS, ext, FAT, VHDX, VHD, QCOW, UDIF, sparse images, EWF, MBR, GPT and APM the answer on every buffer is stated exactly: the value at the documented positions or an error. Refuted with the exact condition: NTFS boot record entry size 224, attribute list entries of size 0 (never ends), ext block size exponent 22, VHDX metadata tables of more than 2047 entries and parent locators with odd text sizes, EWF tables beyond the data, QCOW version 3 headers of 104 bytes. Inodes and the remaining structures are not covered. |
| C44 Paths: splitting and joining | partial | `C44_string_round_trip_partial`, `C44_empty_string_refuted`, `C44_path_round_trip`, `C44_parent_and_file_name`, `C44_ext_round_trip_partial`, `C44_fat_ntfs_round_trip_partial`, `C44_round_trip_refuted` | string paths: every non-empty string; file system paths: false of backslashes, zero characters and characters beyond the basic plane |
| C45 Data stream histories: position always reflects seeks and reads | partial | `C45_history_is_a_file_partial`, `C45_read_past_end`, `C45_read_bounded`, `C45_negative_seek_accepted`, `C45_negative_seek_rejected_refuted`, `C45_window_position` | for all histories whose seeks lead to positions in [0, 2^63); seeks to negative positions are accepted (proved in general, with a witness) |
| C46 Byte order conversions | proved | `C46_reads_field`, `C46_inverts_encoding`, `C46_panics_outside` | unsigned and signed, 16, 32 and 64 bit |
| C47 String escapes are unambiguous | proved | `C47_printable_form_readable`, `C47_printable_form_injective`, `C47_printable_form_is_unicode` | an explicit inverse is given |
| C48 Single byte code pages are the published ones | proved | `C48_decodes_as_published` | 32 pages for which an independent mapping table was available |
| C49 Apple Partition Map entries | proved | `C49_partitions` | all disks; acceptance characterised exactly, no panic |
| C50 FAT directories, paths and identifiers | partial | `C50_directory_partial`, `C50_root_partial`, `C50_paths_partial`, `C50_content_partial`, `C50_directories_answer`, `C50_by_identifier_partial`, `C50_root_identifier_partial`, `C50_geometry_partial`, `C50_label_partial`, `C50_values`, `C50_relative_paths`, `C50_high_clusters_refuted`, `C50_last_clusters_refuted`, `C50_orphan_part_refuted`, `C50_orphan_name_refuted`, `C50_end_mark_refuted`, `C50_kanji_mark_refuted`, `C50_lower_case_refuted`, `C50_same_names_refuted`, `C50_short_name_refuted`, `C50_identifier_refuted`, `C50_behind_end_refuted`, `C50_format_refuted`, `C50_sectors_refuted` | For well formed directories (labels, deleted records, dot entries, short and long names over any number of clusters) the count, the listing in name order, lookup by name in any case, paths through any number of directories, file content and identifiers are those of the records. Refuted beyond that: start clusters are cut to 16 bits, the last two FAT32 clusters are unreadable, an orphaned part of a long name makes a directory an error or renames the next file, free records that are not all zero and records behind the end are listed, 0x05 is not translated, lower case short names are not found by their own name, format detection near 4085 clusters, panics on inconsistent boot records and small identifiers. |
| C51 ext inodes | partial | `C51_inode_partial`, `C51_too_short`, `C51_sizes_refuted`, `C51_large_files_refuted`, `C51_times_refuted` | For inodes of 128 or at least 152 bytes the answer on every buffer is exactly the values at the documented positions, or an error when the attributes are malformed. Refuted: inodes of 129 bytes panic, ext2 and ext3 files of 4 GiB and more have their size cut, creation times from 2038 on and times before 1970 are not shown. The values of attributes are not modelled. |
| C52 ext file systems show their directories, paths and files | partial | `C52_open_partial`, `C52_identifier_partial`, `C52_directory_partial`, `C52_paths_partial`, `C52_relative_paths`, `C52_file_partial`, `C52_seed_refuted`, `C52_revision0_refuted`, `C52_copies_refuted`, `C52_holes_refuted`, `C52_name_sizes_refuted`, `C52_inline_refuted`, `C52_devices_refuted` | For volumes with right superblock, descriptors and checksums (any number of groups, ext2, ext3 and ext4): opening, inode numbers, directories (count, listing in name order, lookup by name, after any history of calls), paths of any length, content through block maps, extents and holes under any history of reads, link targets, sizes and kinds are those of the inodes and records. Refuted: stored checksum seeds are ignored, revision 0 volumes panic, damaged copies of descriptors keep a volume from being opened, directory blocks after a hole and inline data beyond 60 bytes are not read, names run past their record, device numbers above 255 shown as 0. Meta block groups and other name encodings are not covered. |
| C53 NTFS MFT entries show their attributes and data | partial | `C53_entry`, `C53_entry_rejected`, `C53_attribute`, `C53_attributes`, `C53_no_data`, `C53_resident_data`, `C53_data`, `C53_compressed_data_partial`, `C53_in_use_refuted`, `C53_empty_attribute_never_ends`, `C53_content_outside_refuted`, `C53_empty_entry_refuted` | For every sound entry the header values, the attributes (each buffer read as an attribute has an exact answer), lookup by name and type, pieces merged in the order of their clusters, data forks, times, reparse points and data streams under any history of reads are those of the bytes. Refuted: every entry counts as allocated whatever its in use flag, a file name attribute of size 0 makes reading never end, content may lie outside its attribute, an unused entry is an error. For files of the Windows overlay filter see C58. |
| C54 NTFS volumes: files by number and path, directories | partial | `C54_open_partial`, `C54_identifier_partial`, `C54_listing_partial`, `C54_name_partial`, `C54_no_directory_partial`, `C54_paths_partial`, `C54_relative_paths`, `C54_short_names_refuted`, `C54_cycle_never_ends`, `C54_small_value_panics`, `C54_absent_name_panics`, `C54_split_block_refuted` | For every volume whose MFT has one entry for itself: opening, files by number, directories of any index depth (count, listing, lookup by name with or without case folding) and paths of any length give what the entries and indexes say, attribute lists included. Refuted: short names are never reported, cyclic indexes never end, values smaller than their key and absent one character names panic, blocks in two runs are errors. An MFT with its own attribute list is modelled but not covered by the theorems. |
| C55 LZX decompression is the inverse of compression | partial | `C55_content_partial`, `C55_total`, `C55_short_refuted`, `C55_unused_size_code_refuted`, `C55_odd_block_refuted`, `C55_full_padding_refuted` | Every content of at least 6 bytes comes back from every stream of blocks, into buffers of its size or larger; any bytes give an error or a result that depends on them and the buffer size only, without panic. Refuted: contents under 6 bytes are errors, so are blocks that leave the code of match sizes empty; the byte that fills up an uncompressed block of odd size and a full word of padding are not skipped. |
| C56 LZFSE decompression is the inverse of compression | partial | `C56_content_partial`, `C56_total_partial`, `C56_no_panic_refuted`, `C56_ends_refuted`, `C56_deterministic_refuted`, `C56_lzvn_deterministic_refuted`, `C56_little_data_refuted` | Every content comes back from every stream of stored, LZVN and version 2 blocks with eight bytes of data or more, into buffers of its size up to 2 GiB. Any bytes without a version 1 block and with complete frequency tables end in an error or a result within the buffer, without panic. Refuted: a table that ends early panics, version 1 blocks send the decoder back and it never ends, a first distance of zero and LZVN blocks shorter than declared show what was in the buffer, a last block with little data is refused. Contents in version 1 blocks are not covered: the code reads their table at offset 42 of the data wherever the block is. |
| C57 A compressed UDIF image reads back as the disk it was made from | partial | `C57_image_shows_the_disk_partial` | For every disk cut in stored, zero and compressed chunks, with ADC, zlib, bzip2 or LZFSE streams of any compressor, the image opens with the size of the disk and all histories of reads and seeks answer as the disk does. Missing: the images and streams that C30, C10, C12 and C56 refute: ranges across multiples of 8 MiB, equal offsets of compressed ranges, DEFLATE blocks without distance codes, several or large bzip2 blocks, LZFSE blocks of version 1 or with little data. |
| C58 Files of the Windows overlay filter read back as they were before compression | partial | `C58_file_reads_back_partial`, `C58_history_refuted`, `C58_no_panic_refuted` | For every file with chunks stored or compressed, its stream in any runs and pieces, all histories of reads and seeks answer as the file does. LZX is the modelled decompressor, within what C55 shows; LZXPRESS Huffman is a parameter, its source is not in /repo. Refuted: a table with an offset outside of the stream makes the first read fail and the next one answer or panic, offsets that go down panic. |
| C59 Partitions and image layers have names and paths that agree | partial | `C59_listed_entries_are_found`, `C59_names_differ`, `C59_found_entries_are_listed`, `C59_exists_iff_found`, `C59_no_panic`, `C59_one_path_refuted`, `C59_single_layer`, `C59_other_paths_refused` | For the file systems of APM, GPT and MBR volume systems and of QCOW, VHD, VHDX, EWF, sparse and UDIF images: listed entries are found by the path of their name, names differ, what a path finds is listed, a path exists iff it has an entry, no path panics. Refuted: an entry has one path only (numbers with a plus sign or leading zeros are accepted). |
| C60 The finder reports every file entry once, with its path | partial | `C60_finds_everything_partial`, `C60_found_iff_in_the_tree`, `C60_found_once`, `C60_no_root`, `C60_returns_refuted`, `C60_iterator_lists_the_sub_entries`, `C60_paths_lead_back` | For every finite tree of entries, parts of which may not be readable, the calls of the finder give each entry once with its path, sub entries first, one error for each unreadable part, and then nothing; on the file systems of C59 the paths lead back to the entries. Refuted, and the missing part: a call returns also when a directory contains itself. |
| C61 What a location opens does not depend on what was opened before | partial | `C61_history_partial`, `C61_type_ignored_refuted`, `C61_root_directory_refuted`, `C61_base_text`, `C61_layer_text_refuted` | Every call of every history answers as if it were the first, whichever file systems are still in use, when the locations agree on the type of what is in each place. Refuted, and the missing part: the same place opened as another type gives the first type; a layer in the root directory gives the file system of the operating system. The text is right for a base and wrong for every layer, where type and parent have changed places. |
| C62 Digests, copies, timestamps and sizes of the tools are right | partial | `C62_digest_of_the_content`, `C62_digest_of_a_stream`, `C62_copy_is_exact`, `C62_streams_are_kept_refuted`, `C62_filetime_partial`, `C62_filetime_refuted`, `C62_posix`, `C62_posix_ns_partial`, `C62_posix_ns_refuted`, `C62_fat_times_refuted`, `C62_bytesize_partial`, `C62_bytesize_refuted` | For all contents and all sizes of the pieces the digests are the published ones (by C05) in hexadecimal (by C22), copies are exact and failures are reported. Timestamps are right from 1970 on, FILETIME also up to a second before. Refuted: the second before 1970 loses its sign, POSIX times with nanoseconds before 1970 are off, FAT times are an error, all copies go to one file so that only the last is kept, sizes from 2^60 on panic. The rounding of f64 in a size is a parameter. |
| C63 Shown paths, modes and bodyfile lines can be told apart | partial | `C63_paths_differ`, `C63_no_control_characters`, `C63_no_panic_refuted`, `C63_mode`, `C63_mode_bits_refuted`, `C63_line_partial`, `C63_line_refuted` | Paths of file entries with different names have different texts, without control characters, for names of characters, 16 bit units and decoded bytes; a mode text has the type and the nine permission bits; lines of values without bars and line ends split into those values. Refuted: names of the operating system and bytes that do not decode panic; bars in names and line ends in link targets are not escaped; set user identifier and the like are not shown. |
| C64 A scan tells everything that is on a medium | partial | `C64_scan_tells_all_partial`, `C64_scan_returns`, `C64_tells_one_tree`, `C64_sparse_and_udif_refuted`, `C64_nested_volumes_refuted` | For a file with nothing known, a file system, a volume system of any number of partitions that hold file systems or nothing known, or an EWF, QCOW, VHD or VHDX image of one of those, the scan returns the one tree that names them all; scans return for any medium. Refuted: the scan of sparse images and UDIF images always fails; volume systems in partitions are not found. What signatures the scanners find and what opens are parameters (C39 and the formats' properties). |
| C65 The header values of an EWF image are the ones that were written | partial | `C65_header`, `C65_header2_partial`, `C65_missing_lines`, `C65_header_no_panic`, `C65_header2_panics`, `C65_header2_notes_refuted`, `C65_header2_dates_refuted`, `C65_header_size_refuted` | For every zlib stream (C11) of a text with codes and values that is at most four times as large as its data, each value is the first one written for it; header2 in both byte orders with dates up to 2038; header sections never panic, header2 sections only on such dates. Refuted: the notes of every header2 section are lost (the code looks for w), dates from 2038 on panic, texts of more than four times the size of their compressed data are an error. Missing: values with carriage returns. |
| C66 The fake file system holds what was added to it | partial | `C66_last_added`, `C66_added_is_found_partial`, `C66_failed_add_refuted`, `C66_shared_position_refuted` | If no path is added twice, all are added, each file is found with its data and no other path is; in general the last data is found. Refuted: adding under a path in use fails and replaces the file all the same; all readers of a file share one position. The empty path is read as the root (C44). |
| C67 The files an image names are looked for in the directory of the image | partial | `C67_os_plain_names_partial`, `C67_os_in_directory_refuted`, `C67_no_such_file_refuted`, `C67_join`, `C67_parent_of_join`, `C67_vfs_resolver`, `C67_qcow_outside_refuted` | Plain names lead to the file of those names in the directory; joining and its parent are proved for the ext, FAT, NTFS and string paths. Refuted: an absolute name, or one with the parent directory, leads the operating system resolver outside the directory of the image, so a QCOW image can name any file as its backing file; that resolver never answers that there is no such file but fails. Not modelled: PathBuf::pop and Path::file_name for OS paths, Windows paths. |
| C68 File entries of the operating system say what the operating system says | partial | `C68_entry_partial`, `C68_not_there`, `C68_links_refuted`, `C68_sockets_refuted`, `C68_times_refuted` | For files that are no links: an entry exactly for the types other than sockets created from 1970 on, with the type and data of the file, and each time right exactly if it has nanoseconds or is a 32-bit number of seconds other than 0. Refuted: links are never seen, links that lead nowhere are said to be not there, sockets and files created before 1970 are an error, whole seconds from 2038 on become other times. The operating system is a parameter: permissions, links in the middle of paths and Windows are left out; the root entry and sub entries of the OS file system are todo!(). |
| C69 The names of NTFS junctions | partial | `C69_names_partial`, `C69_odd_refuted`, `C69_read_again_refuted`, `C69_reparse_points_refuted` | For all buffers with even sizes: the two names exactly if they are within the data, else an error. Refuted: odd sizes panic, reading again appends to the earlier names, and reparse points never read the data of junctions, so that their names are lost and malformed ones are accepted. |
| C70 Exporting a path writes its data stream of each file system of the image | partial | `C70_export_partial`, `C70_all_streams`, `C70_first_error_refuted`, `C70_only_last_refuted` | Proved for every tree, writer and answers: the streams are written in order up to the first failure, all of them if nothing fails. Refuted: the first failure ends the export, and the writer replaces its file, so only the last stream is left. How a location answers is a parameter. |
