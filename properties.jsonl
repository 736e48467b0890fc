{"id": "C01", "title": "Adler-32 is the RFC 1950 checksum and is independent of chunking", "statement": "Feeding any data to an Adler-32 context through any sequence of update calls and then calling finalize returns exactly the RFC 1950 Adler-32 of the concatenated data, starting from the initial value given to new; finalize leaves the context as if freshly created.", "quantifier": "all byte strings of any length, all ways of splitting them into update calls, all reduced initial values", "why_tests_cant": "the 5552-byte deferral of the modulo reduction only matters on long data with large bytes; tests try a handful of buffers", "anchors": ["keramics-checksums/src/adler32.rs: Adler32Context::new/update/finalize/mod_65521"]}
{"id": "C02", "title": "Forward CRC-32 equals the bit-by-bit polynomial remainder, independent of chunking", "statement": "For every polynomial and initial value, the table-driven MSB-first CRC-32 context returns the same value as shifting the message bits one at a time through the polynomial register, whatever the split into update calls; finalize resets the context.", "quantifier": "all polynomials, initial values, byte strings and chunkings", "why_tests_cant": "table correctness is a statement about all 256 entries for every polynomial and all message lengths", "anchors": ["keramics-checksums/src/crc32.rs: Crc32Context"]}
{"id": "C03", "title": "Reflected CRC-32 equals the bit-by-bit polynomial remainder, independent of chunking", "statement": "Same as C02 for the reflected (LSB-first) context used for GPT and others.", "quantifier": "all polynomials, initial values, byte strings and chunkings", "why_tests_cant": "see C02", "anchors": ["keramics-checksums/src/crc32.rs: ReversedCrc32Context"]}
{"id": "C04", "title": "Hash contexts: the digest does not depend on how data is split over update calls", "statement": "For MD5, SHA-1, SHA-224, SHA-256 and SHA-512: updating with a then b then finalizing gives the same digest as updating with a++b; finalize returns the context to its initial state so that it can be reused.", "quantifier": "all byte strings, all chunkings including empty chunks and chunks ending exactly on a block boundary", "why_tests_cant": "buffering bugs show up only at particular combinations of chunk lengths and buffer fill", "anchors": ["keramics-hashes/src/md5.rs", "keramics-hashes/src/sha1.rs", "keramics-hashes/src/sha224.rs", "keramics-hashes/src/sha256.rs", "keramics-hashes/src/sha512.rs"]}
{"id": "C05", "title": "Hash contexts compute the standard functions", "statement": "The digest returned after hashing a message equals RFC 1321 MD5 / FIPS 180-4 SHA-1, SHA-224, SHA-256, SHA-512 of the message (padding, length field, compression), for every message below the length limit.", "quantifier": "all messages up to the documented maximum length", "why_tests_cant": "test vectors cover a few messages; padding has a different shape for each residue of the length", "anchors": ["keramics-hashes/src/*.rs: update/finalize/transform_block"]}
{"id": "C06", "title": "ADC decompression is faithful, memory safe and deterministic", "statement": "decompress never panics on any input and any output buffer; what it writes is exactly the LZ77 meaning of the token stream; bytes it reports as written do not depend on what the caller's buffer held before; data encoded by any valid encoder decodes to the original.", "quantifier": "all compressed byte strings, all output buffer sizes and contents, all token sequences", "why_tests_cant": "hostile inputs are unbounded; back-references may overlap the write position in any way", "anchors": ["keramics-compression/src/adc.rs: AdcContext::decompress"]}
{"id": "C07", "title": "LZVN decompression is memory safe and its output is determined by the input", "statement": "decompress never panics and the bytes reported as written depend only on the compressed data, not on the previous content of the destination buffer.", "quantifier": "all compressed byte strings, all destination buffers", "why_tests_cant": "needs every opcode in every position; a stale-buffer read is invisible when tests pass zeroed buffers", "anchors": ["keramics-compression/src/lzvn.rs: LzvnContext::decompress"]}
{"id": "C08", "title": "LZNT1 decompression is memory safe, deterministic and faithful", "statement": "decompress never panics; output is the LZNT1 meaning of the chunks; output does not depend on the destination's previous content.", "quantifier": "all compressed byte strings and destination buffers", "why_tests_cant": "the shift that splits a tuple depends on the output position; overflow would need particular long matches", "anchors": ["keramics-compression/src/lznt1.rs: Lznt1Context::decompress"]}
{"id": "C09", "title": "Huffman decoding inverts canonical Huffman coding", "statement": "A tree built from code lengths decodes every symbol's canonical code word (RFC 1951 3.2.2) back to that symbol, over-subscribed length sets are rejected, and decoding never panics.", "quantifier": "all code length vectors, all symbols, all bit streams", "why_tests_cant": "the number of code length vectors is astronomical", "anchors": ["keramics-compression/src/huffman.rs: HuffmanTree::build/decode_symbol"]}
{"id": "C10", "title": "DEFLATE decompression inverts valid DEFLATE streams and is safe on invalid ones", "statement": "Decompressing a valid stream of stored, fixed or dynamic blocks yields the bytes it encodes; any input terminates without panic or out of bounds access.", "quantifier": "all token sequences / all byte strings", "why_tests_cant": "combinatorial space of blocks, trees and matches", "anchors": ["keramics-compression/src/deflate.rs"]}
{"id": "C11", "title": "zlib detects corrupted data", "statement": "If decompression of a complete zlib stream succeeds then the Adler-32 stored in the stream equals the Adler-32 of the decompressed data.", "quantifier": "all zlib streams", "why_tests_cant": "a test needs to corrupt exactly the right bytes; the property is universally quantified over corruptions", "anchors": ["keramics-compression/src/zlib.rs: ZlibContext::decompress"]}
{"id": "C12", "title": "bzip2 decompression undoes the block transforms and never panics", "statement": "The move-to-front, run-length and Burrows-Wheeler decoding stages invert their forward transforms; malformed input results in an error, not a panic.", "quantifier": "all blocks / all byte strings", "why_tests_cant": "hostile Huffman tables and origin pointers are unbounded", "anchors": ["keramics-compression/src/bzip2.rs"]}
{"id": "C13", "title": "Base64 decoding inverts RFC 4648 encoding", "statement": "For every byte string, decoding its RFC 4648 encoding (with padding, and with the supported white space inserted) returns the byte string; strings containing characters outside the alphabet are rejected.", "quantifier": "all byte strings, all placements of white space", "why_tests_cant": "three padding shapes times unbounded length", "anchors": ["keramics-encodings/src/base64.rs"]}
{"id": "C14", "title": "UTF-8 decoding inverts UTF-8 encoding and accepts only well-formed UTF-8", "statement": "Decoding the UTF-8 encoding of any sequence of Unicode scalar values returns that sequence; a byte sequence that is not well-formed UTF-8 is reported as an error.", "quantifier": "all sequences of scalar values; all byte sequences", "why_tests_cant": "1.1 million code points and 2^32 four byte sequences", "anchors": ["keramics-encodings/src/utf8.rs: DecoderUtf8"]}
{"id": "C15", "title": "Single byte code pages: encode and decode are mutually inverse", "statement": "For every supported single byte code page, every byte that decodes to a code point is what that code point encodes to, and every code point that encodes to a byte is what that byte decodes to; strings are converted element by element.", "quantifier": "all code pages, all bytes, all code points (2^32), all strings", "why_tests_cant": "the encoder tables are sparse over the full code point range and were written independently of the decoder tables", "anchors": ["keramics-encodings/src/iso8859_*.rs", "keramics-encodings/src/windows*.rs", "keramics-encodings/src/koi8*.rs", "keramics-encodings/src/mac*.rs"]}
{"id": "C16", "title": "UUID text and byte forms round trip", "statement": "Parsing the string form of any UUID gives back the UUID; big- and little-endian byte forms read the same fields with only the first three fields byte-swapped; malformed strings are rejected without panic.", "quantifier": "all 2^128 UUIDs, all strings", "why_tests_cant": "the space is too large to enumerate, malformed strings include multi-byte characters", "anchors": ["keramics-types/src/uuid.rs"]}
{"id": "C17", "title": "UCS-2 strings: comparison is a total order and reading stops at the terminator", "statement": "Ucs2String::compare is a total order consistent with equality (lexicographic); from_le_bytes/from_be_bytes/read_data return exactly the elements before the first NUL; case folding preserves length and is applied element-wise.", "quantifier": "all strings, all byte buffers, all mapping tables", "why_tests_cant": "transitivity/antisymmetry are universally quantified", "anchors": ["keramics-types/src/ucs2_string.rs", "keramics-types/src/utf16_string.rs", "keramics-types/src/byte_string.rs"]}
{"id": "C18", "title": "Date and time conversion is the proleptic Gregorian calendar", "statement": "For every supported FILETIME / POSIX timestamp, the ISO 8601 date and time reported is the calendar date and time that many units after the epoch; conversion never panics.", "quantifier": "all 64-bit FILETIMEs, all 32/64-bit POSIX times including negative ones", "why_tests_cant": "leap years, century rules and pre-epoch times make boundary sets unbounded in practice", "anchors": ["keramics-datetime/src/util.rs", "keramics-datetime/src/filetime.rs", "keramics-datetime/src/posix.rs", "keramics-datetime/src/epoch.rs"]}
{"id": "C19", "title": "FAT date time unpacking", "statement": "Every packed FAT date/time value is split into the day, month, year, hours, minutes, seconds (2 second units) and 10 ms fraction fields of the FAT specification, without overflow, and re-packing the fields gives back the value.", "quantifier": "all 2^32 (2^40 with fraction) packed values", "why_tests_cant": "field-extraction errors affect only some bit patterns", "anchors": ["keramics-datetime/src/fat.rs"]}
{"id": "C20", "title": "Window streams (range stream, partitions) present exactly the window", "statement": "Reading from a range stream or an MBR/GPT/APM partition at any position returns exactly the bytes of the underlying stream at offset+position, never beyond the window; sequential reads concatenate to the window's content whatever the buffer sizes; seek positions are as documented.", "quantifier": "all underlying streams, windows, sequences of seek and read calls", "why_tests_cant": "read/seek histories are unbounded", "anchors": ["keramics-tools/src/range_stream.rs", "keramics-formats/src/mbr/partition.rs", "keramics-formats/src/gpt/partition.rs", "keramics-formats/src/apm/partition.rs"]}
{"id": "C21", "title": "The fake data stream presents its data followed by zeros", "statement": "Reading a fake data stream of size n backed by data d returns d padded with zeros to n, at every offset and for every buffer size.", "quantifier": "all data, sizes, offsets, buffer sizes", "why_tests_cant": "depends on where a read straddles the end of the data", "anchors": ["keramics-core/src/fake_data_stream.rs"]}
{"id": "C22", "title": "Hexdump and array formatting are total and complete", "statement": "Formatting any byte string as a hexdump never panics, shows every byte exactly once and in order; formatting any array shows every element exactly once.", "quantifier": "all byte strings / arrays of any length", "why_tests_cant": "edge cases at every residue of the line length", "anchors": ["keramics-core/src/formatters.rs"]}
{"id": "C23", "title": "LRU cache: bounded, returns what was inserted, evicts least recently used", "statement": "After any history of operations the cache holds at most its capacity; a just inserted key is found with its value; a key that is found always has the value most recently inserted for it; the entry evicted is the least recently used.", "quantifier": "all operation histories, capacities", "why_tests_cant": "history dependent", "anchors": ["keramics-formats/src/lru_cache.rs"]}
{"id": "C24", "title": "Block tree behaves as a map from offsets to the range inserted over them", "statement": "After any sequence of successful inserts, looking up an offset returns the value of the insert whose range contains it, or nothing; overlapping, misaligned or out of range inserts are rejected; no operation panics.", "quantifier": "all tree geometries, all insert histories, all offsets", "why_tests_cant": "tree shape depends on the first insert and on all geometry parameters", "anchors": ["keramics-formats/src/block_tree.rs", "keramics-formats/src/block_tree_node.rs"]}
{"id": "C25", "title": "Sparse image: reads return the virtual disk content", "statement": "For every well-formed .sparseimage file, reading any range returns, for each media byte, the byte of the band that maps it or zero when unmapped, independent of how the range is split into reads.", "quantifier": "all band arrays, sizes, read offsets and lengths", "why_tests_cant": "every combination of mapped/unmapped bands and straddling reads", "anchors": ["keramics-formats/src/sparseimage/file.rs"]}
{"id": "C26", "title": "Sparse bundle: reads return the virtual disk content", "statement": "For every sparse bundle, reading any range returns for each media byte the byte of its band file, or zero when the band is missing or shorter.", "quantifier": "all band sizes, media sizes, band file contents and lengths, reads", "why_tests_cant": "straddling reads and short bands", "anchors": ["keramics-formats/src/sparsebundle/image.rs"]}
{"id": "C27", "title": "VHD: reads return the virtual disk content", "statement": "For every valid fixed/dynamic/differential VHD, reading any range after any history of reads returns for each sector the sector data when its bitmap bit is set, else zeros (dynamic) or the parent's data (differential).", "quantifier": "all block allocation tables, sector bitmaps, read histories", "why_tests_cant": "lazy filling of the block tree makes the result history dependent", "anchors": ["keramics-formats/src/vhd/file.rs", "keramics-formats/src/vhd/sector_bitmap.rs"]}
{"id": "C28", "title": "VHDX: reads return the virtual disk content", "statement": "As C27 for VHDX, including the chunk interleaving of the block allocation table.", "quantifier": "all block allocation tables, states, bitmaps, read histories", "why_tests_cant": "see C27", "anchors": ["keramics-formats/src/vhdx/file.rs"]}
{"id": "C29", "title": "QCOW: reads return the guest-visible content", "statement": "For every QCOW image without compression/encryption, reading any range after any history of reads returns the mapped cluster's bytes, else the backing file's bytes, else zeros.", "quantifier": "all level 1/level 2 tables, backing chains, read histories", "why_tests_cant": "see C27", "anchors": ["keramics-formats/src/qcow/file.rs"]}
{"id": "C30", "title": "UDIF: reads return the image content", "statement": "For every UDIF image, reading any range returns the concatenation of its raw, zero and decompressed block ranges, and does not depend on the decompression cache.", "quantifier": "all block tables, read histories", "why_tests_cant": "cache state is history dependent", "anchors": ["keramics-formats/src/udif/file.rs"]}
{"id": "C31", "title": "NTFS data runs decode to the runs that were encoded", "statement": "Decoding the standard encoding of any list of runs (lengths, signed relative cluster offsets, sparse runs) gives back exactly those runs with absolute cluster numbers; arbitrary bytes are decoded or rejected without panic.", "quantifier": "all run lists / all byte strings", "why_tests_cant": "variable length signed fields: 64 size combinations times all values", "anchors": ["keramics-formats/src/ntfs/data_run.rs", "keramics-formats/src/ntfs/cluster_group.rs"]}
{"id": "C32", "title": "NTFS fix-up restores protected records", "statement": "Applying the fix-up values to a record protected by the update sequence array gives back the original record; a torn record (placeholder mismatch) is rejected; no panic on arbitrary records.", "quantifier": "all records, all offsets and counts", "why_tests_cant": "see statement", "anchors": ["keramics-formats/src/ntfs/fixup_values.rs"]}
{"id": "C33", "title": "NTFS non-resident data: reads return the file content", "statement": "Reading a non-compressed non-resident attribute returns cluster data for allocated runs, zeros for sparse runs and beyond the valid data size, up to the data size.", "quantifier": "all run lists, sizes, read histories", "why_tests_cant": "straddling reads over arbitrary runs", "anchors": ["keramics-formats/src/ntfs/block_stream.rs"]}
{"id": "C34", "title": "NTFS compressed data: any read within the file succeeds and returns the decompressed content", "statement": "Reading any range of a compressed attribute returns the corresponding bytes of the decompressed units, never panics.", "quantifier": "all offsets, buffer sizes", "why_tests_cant": "depends on alignment of the read relative to the compression unit", "anchors": ["keramics-formats/src/ntfs/compressed_stream.rs"]}
{"id": "C35", "title": "FAT allocation table entries and cluster chains", "statement": "Reading entry i of a FAT12/16/32 table returns the i-th packed value; following a chain yields the clusters in order, terminates on every table (cycles are rejected), and reading the file returns the cluster bytes in chain order truncated to the file size.", "quantifier": "all tables, start clusters, file sizes", "why_tests_cant": "cyclic chains of any length and position", "anchors": ["keramics-formats/src/fat/block_allocation_table.rs", "keramics-formats/src/fat/block_stream.rs"]}
{"id": "C36", "title": "ext block maps: the block ranges describe exactly the file's block map", "statement": "For the indirect block map and for extents, the produced ranges are contiguous from block 0 to the number of blocks and map each logical block to the physical block the on-disk structure assigns (or sparse); traversal terminates on every input.", "quantifier": "all trees of any shape and content", "why_tests_cant": "indirect levels and coalescing interact", "anchors": ["keramics-formats/src/ext/block_numbers_tree.rs", "keramics-formats/src/ext/extents_tree.rs", "keramics-formats/src/ext/block_stream.rs"]}
{"id": "C37", "title": "MBR logical partitions have the offsets the format defines", "statement": "Each logical partition's offset is the offset of the extended boot record that describes it plus its relative start; walking the chain of extended boot records terminates.", "quantifier": "all chains of extended boot records, including cyclic ones", "why_tests_cant": "needs images with two or more logical partitions and hostile cyclic chains", "anchors": ["keramics-formats/src/mbr/volume_system.rs"]}
{"id": "C38", "title": "GPT integrity", "statement": "A partition table is accepted only if the header and entry array checksums match; every reported partition lies within the usable area.", "quantifier": "all images", "why_tests_cant": "corruption can be anywhere", "anchors": ["keramics-formats/src/gpt/volume_system.rs", "keramics-formats/src/gpt/partition_table_header.rs"]}
{"id": "C39", "title": "Signature scanner is sound and complete", "statement": "Every signature reported by a scan matches the data at the reported place, every signature present is reported, and building and scanning terminate without panic.", "quantifier": "all signature sets, all data, all chunkings", "why_tests_cant": "scan tree shape depends on the whole signature set", "anchors": ["keramics-sigscan/src/*.rs", "keramics-formats/src/scanner.rs"]}
{"id": "C40", "title": "File name splitting", "statement": "file_stem and extension of a path component never panic and satisfy name = stem + '.' + extension whenever an extension exists.", "quantifier": "all strings, including non ASCII ones", "why_tests_cant": "multi-byte characters make byte and character indices differ", "anchors": ["keramics-formats/src/path_component.rs"]}
{"id": "C41", "title": "EWF segment file naming", "statement": "The extension computed for each segment number follows the documented sequence E01..E99, EAA..ZZZ, is different for different numbers, and numbers beyond the schema are rejected.", "quantifier": "all 65535 segment numbers and 4 naming schemas", "why_tests_cant": "the sequence has three regimes", "anchors": ["keramics-formats/src/ewf/image.rs: get_segment_file_extension"]}
{"id": "C42", "title": "EWF: reads return the acquired media, independent of caches", "statement": "Reading any range of an EWF image returns the media bytes whatever was read before and however many segment files there are.", "quantifier": "all images, all read histories", "why_tests_cant": "cache collisions and evictions need multi-segment images", "anchors": ["keramics-formats/src/ewf/image.rs: read_data_from_blocks"]}
{"id": "C43", "title": "Parsers of fixed layouts are total on arbitrary data", "statement": "Reading any of the on-disk header structures from a buffer of any length and content returns a value or an error and never panics, and accepts only data carrying the structure's signature.", "quantifier": "all byte strings", "why_tests_cant": "fuzzing samples but cannot exhaust", "anchors": ["keramics-formats/src/*/\u2026header*.rs", "keramics-types/src/macros.rs"]}
{"id": "C44", "title": "Paths: splitting and joining", "statement": "Converting a string to a path and back gives the same string; the parent of a path joined with its file name is the path.", "quantifier": "all strings / component lists", "why_tests_cant": "see statement", "anchors": ["keramics-vfs/src/string_path.rs", "keramics-vfs/src/path.rs"]}
{"id": "C45", "title": "Data stream histories: position always reflects seeks and reads", "statement": "For every stream type, after any sequence of seek and read calls the position is that of an ideal file of the stream's size; reading at or past the end returns 0; seeking to a negative position is rejected.", "quantifier": "all histories", "why_tests_cant": "histories are unbounded", "anchors": ["keramics-core/src/data_stream.rs", "all impl DataStream"]}
{"id": "C46", "title": "Byte order conversions", "statement": "Reading a 16/32/64 bit signed or unsigned integer at an offset in either byte order inverts the standard encoding and panics exactly when the field does not fit in the buffer.", "quantifier": "all buffers, offsets, values", "why_tests_cant": "2^64 values", "anchors": ["keramics-types/src/macros.rs"]}
{"id": "C47", "title": "String escapes are unambiguous", "statement": "The printable form of UCS-2 strings is injective: two different strings have different printable forms (surrogates are escaped).", "quantifier": "all strings", "why_tests_cant": "injectivity is a statement about all pairs", "anchors": ["keramics-types/src/ucs2_string.rs: to_string"]}
{"id": "C48", "title": "Single byte code pages are the published ones", "statement": "Decoding any byte of a supported single byte code page gives the code point of the mapping table published for that code page, or an error when the byte is unassigned.", "quantifier": "all 256 bytes of all pages with a published table", "why_tests_cant": "tests in the repository check a few bytes of each page", "anchors": ["keramics-encodings/src/iso8859_*.rs", "keramics-encodings/src/windows*.rs", "keramics-encodings/src/koi8*.rs", "keramics-encodings/src/mac*.rs"]}
{"id": "C49", "title": "Apple Partition Map entries", "statement": "A partition map is accepted exactly if all the entries it counts have the signature and the same count and the first describes the map; the partitions are the other entries in order, at the offset and with the size of the entry; reading any disk ends without a panic.", "quantifier": "all disk contents", "why_tests_cant": "the count and every entry can be anything, in any combination", "anchors": ["keramics-formats/src/apm/volume_system.rs", "keramics-formats/src/apm/partition_map_entry.rs"]}
{"id": "C50", "title": "FAT directories, paths and identifiers", "statement": "A FAT directory lists exactly the files of its records, each once, in the order of their names in upper case, with the long name if the records have one; looking a name up in any case gives the file of that name or nothing; a path leads to the file the names in it lead to directory by directory; an identifier gives the file at that place; the content of a file is its cluster chain cut at its size.", "quantifier": "all volumes, directories of any number of records and clusters, names and paths of any depth", "why_tests_cant": "the records of a directory, the place where clusters cut them and the depth of paths are unbounded", "anchors": ["keramics-formats/src/fat/directory_entries.rs", "keramics-formats/src/fat/directory_entry.rs", "keramics-formats/src/fat/directory_entry_type.rs", "keramics-formats/src/fat/file_entry.rs", "keramics-formats/src/fat/file_system.rs", "keramics-formats/src/fat/string.rs"]}
{"id": "C51", "title": "ext inodes", "statement": "Reading an ext2, ext3 or ext4 inode gives the mode, owner, group, size, times, link count, flags, block references, checksum and attributes that stand in its bytes; reading any bytes ends with that inode or an error.", "quantifier": "all inode bytes of any size, all versions", "why_tests_cant": "the extra size, the attributes and the high halves of the values combine in every way", "anchors": ["keramics-formats/src/ext/inode.rs", "keramics-formats/src/ext/inode_ext2.rs", "keramics-formats/src/ext/inode_ext3.rs", "keramics-formats/src/ext/inode_ext4.rs", "keramics-formats/src/ext/inode_extension_ext4.rs"]}
{"id": "C52", "title": "ext file systems show their directories, paths and files", "statement": "Opening an ext volume and asking for files by inode number, path, index or name gives exactly the files the volume's inodes and directory records describe: a directory lists the records in use, in the order of their names, whatever was asked before; a path leads to the file its names lead to or to nothing; the content, link target, size and device number are those of the inode and its blocks, holes reading as zeros.", "quantifier": "all volumes (any number of block groups, block and inode sizes, features, checksums), all directories, paths, histories of calls and of reads and seeks", "why_tests_cant": "group descriptors, inodes, block maps, extents, records and call histories combine without bound", "anchors": ["keramics-formats/src/ext/file_system.rs", "keramics-formats/src/ext/group_descriptor_table.rs", "keramics-formats/src/ext/inode_table.rs", "keramics-formats/src/ext/directory_tree.rs", "keramics-formats/src/ext/directory_entries.rs", "keramics-formats/src/ext/file_entry.rs", "keramics-formats/src/ext/features.rs"]}
{"id": "C53", "title": "NTFS MFT entries show their attributes and data", "statement": "Reading an MFT entry gives exactly what its bytes say: the values of its header, with the last two bytes of each sector restored; its attributes in order, each found by name and type, whether its content is in the entry or in clusters; pieces of one attribute, in whatever order they come, make one attribute with all the runs; the times, flags and reparse point; and each data stream, named or not, reads as the bytes of its entry or clusters under any history of reads and seeks. Entries that are torn or have another size are rejected. Reading always ends, and tells entries in use from those that are not.", "quantifier": "all entries (any size, number, order and kind of attributes, names, runs, pieces), all volumes, all histories of reads and seeks", "why_tests_cant": "attribute chains, name and run encodings, pieces and read histories combine without bound; hostile sizes are what tests miss", "anchors": ["keramics-formats/src/ntfs/mft_entry.rs", "keramics-formats/src/ntfs/mft_attribute.rs", "keramics-formats/src/ntfs/mft_attributes.rs", "keramics-formats/src/ntfs/mft_attribute_group.rs", "keramics-formats/src/ntfs/reparse_point.rs", "keramics-formats/src/ntfs/symbolic_link_reparse_data.rs", "keramics-formats/src/ntfs/standard_information.rs", "keramics-formats/src/ntfs/data_fork.rs"]}
{"id": "C54", "title": "NTFS volumes: files by number and path, directories", "statement": "Opening an NTFS volume gives its boot record values, its label and its version. A file by its number, or reached by an absolute path from the root, is the one whose MFT entries have that number: its name, reference, parent, size, link target, flags, whether it is a directory, and all its attributes, from its entry and from the further entries of an attribute list, are those of the bytes. A directory lists exactly the files of its index, root and blocks of any depth, in index order, without itself and without short names, and reports the short name of a file with the file; a name finds the file with that name, in the case rules of the directory and the upper case table of the volume, or none. Every path, however long, leads to the file that its names lead to, or nowhere. All of this ends on every volume.", "quantifier": "all volumes (any cluster and entry size, MFT runs, upper case table, attributes, attribute lists, index depth and block placement), all numbers, names and paths", "why_tests_cant": "the depth of indexes, the placement of runs, the folding table and the length of paths are unbounded; hostile indexes (cycles, wrong sizes) are what tests miss", "anchors": ["keramics-formats/src/ntfs/file_system.rs", "keramics-formats/src/ntfs/file_entry.rs", "keramics-formats/src/ntfs/master_file_table.rs", "keramics-formats/src/ntfs/directory_index.rs", "keramics-formats/src/ntfs/index.rs", "keramics-formats/src/ntfs/index_entry.rs", "keramics-formats/src/ntfs/directory_entries.rs", "keramics-formats/src/ntfs/attribute_list.rs"]}
{"id": "C55", "title": "LZX decompression is the inverse of compression", "statement": "Decompressing an LZX stream, as WIM files have them, gives back exactly the bytes that were compressed: blocks of every kind, verbatim, with aligned offsets and uncompressed, with code lengths given as differences from those of the block before, matches at new and at repeated distances, and call targets translated back; the bytes of the buffer behind the content stay what they were and the size is reported. Any other bytes give an error or a result that depends on them and on the size of the buffer only, never a panic or an endless loop.", "quantifier": "all contents, all ways of cutting them in blocks and tokens, all code lengths and ways of writing them, all byte strings given as input, all buffers", "why_tests_cant": "codes, code length encodings, block kinds, distances and match sizes combine without bound; a test corpus holds a few streams of one encoder", "anchors": ["keramics-compression/src/lzx.rs: LzxContext::decompress, LzxBitstream, read_code_sizes, decompress_adjust_call_instructions"]}
{"id": "C56", "title": "LZFSE decompression is the inverse of compression", "statement": "Decompressing an LZFSE stream gives back exactly the bytes that were compressed, whatever mix of stored blocks, LZVN blocks and blocks with entropy coded literals and matches the compressor chose, and whatever frequencies it gave the symbols; the bytes of the buffer behind the content stay what they were and the size is reported. Any other bytes give an error or a result that depends on them and on the size of the buffer only, never a panic, a write outside of the buffer or an endless loop.", "quantifier": "all contents, all ways of cutting them in blocks, literals and matches, all frequency tables, final states and paddings, all byte strings given as input, all buffers", "why_tests_cant": "frequencies, states, block kinds, distances and match sizes combine without bound; a test corpus holds a few streams of one encoder and no hostile ones", "anchors": ["keramics-compression/src/lzfse.rs: LzfseContext::decompress, decompress_block, LzfseBitstream, build_decoder_table, build_value_decoder_table, read_block_v1_header, read_block_v2_header, read_literal_values, read_lmd_values"]}
{"id": "C57", "title": "A compressed UDIF image reads back as the disk it was made from", "statement": "When a disk is cut in chunks and each chunk is stored, left out as zeros, or compressed with ADC, zlib, bzip2 or LZFSE by any compressor, opening the image that holds the results reports the size of the disk, and every sequence of reads and seeks on it answers with the same bytes and offsets as the same sequence on the disk itself.", "quantifier": "all disks, all ways of cutting them in chunks and tables, all four compression methods and all streams they allow for a chunk, all sequences of reads and seeks", "why_tests_cant": "it joins the image format with four decompressors: chunks, streams and read histories combine without bound, and a test corpus has one image per method made by one tool", "anchors": ["keramics-formats/src/udif/file.rs: UdifFile::open, read_compressed_block, Read and Seek", "keramics-compression/src: adc.rs, zlib.rs, bzip2.rs, lzfse.rs"]}
{"id": "C58", "title": "Files of the Windows overlay filter read back as they were before compression", "statement": "For a file that NTFS keeps through the Windows overlay filter, cut in chunks that are stored as they are or compressed, with a table of where the chunks are, the data stream of the file has the size of the original file and every sequence of reads and seeks on it answers as the original file would. On any other table and data the answers are errors or data that do not depend on what was read before, never panics.", "quantifier": "all files, all ways their chunks can be stored and compressed, table entries of 4 and of 8 bytes, all placements of the stream in runs and attribute pieces, all sequences of reads and seeks", "why_tests_cant": "chunk sizes, compressed streams, the cache of 8 chunks and read histories combine without bound; the corpus has one file per method and no damaged tables", "anchors": ["keramics-formats/src/ntfs/wof_compressed_stream.rs: NtfsWofCompressedStream::open, read, seek", "keramics-formats/src/ntfs/mft_attributes.rs: get_data_stream_by_name"]}
{"id": "C59", "title": "Partitions and image layers have names and paths that agree", "statement": "In the virtual file systems of APM, GPT and MBR volume systems and of QCOW, VHD, VHDX, EWF, sparse and UDIF images, the root lists every partition or layer under the name of the kind followed by its number, counted from 1. The path of a listed name gives that very entry, every path that gives an entry gives a listed one, each entry has one path, a path exists exactly when it gives an entry, and no path panics.", "quantifier": "all nine kinds, all numbers of partitions or layers, all paths of any number of components and characters", "why_tests_cant": "paths and numbers are unbounded, including numerals that overflow, multi-byte characters at the cut of the name and unusual spellings of a number; tests try a handful of paths", "anchors": ["keramics-vfs/src/apm/file_system.rs: file_entry_exists, get_file_entry_by_path, get_partition_index", "keramics-vfs/src/apm/file_entry.rs: get_name, get_number_of_sub_file_entries, get_sub_file_entry_by_index", "keramics-vfs/src/qcow/file_system.rs: get_layer_index", "keramics-vfs/src/ewf/file_system.rs, ewf/file_entry.rs, and the same files of gpt, mbr, vhd, vhdx, sparseimage, udif"]}
{"id": "C60", "title": "The finder reports every file entry once, with its path", "statement": "Iterating over the finder of a virtual file system gives every file entry that can be reached from the root exactly once, with the names from the root to it, the entries of a directory before the directory; it gives one error for each entry that cannot be read or listed and goes on with the next one; then it ends, and stays ended. Every call returns. The iterator over the entries of one directory gives each in order and then ends.", "quantifier": "all file systems as trees of any depth and width with any unreadable parts, all numbers of calls", "why_tests_cant": "depth, width and the places of failures are unbounded; the finder has no tests at all", "anchors": ["keramics-vfs/src/finder/finder.rs: VfsFinder::next", "keramics-vfs/src/iterators/file_entries.rs: VfsFileEntriesIterator::next"]}
{"id": "C61", "title": "What a location opens does not depend on what was opened before", "statement": "Opening the file system of a location through a context gives what opening the layers of that location one by one gives, whatever was opened before through the same context and whichever of those file systems are still in use. The text of a location shows, for every layer from the base up, a line with its type and path.", "quantifier": "all histories of calls with all locations of any number of layers, all subsets of the file systems that are still in use at each call", "why_tests_cant": "the context keeps what it opened, so that the answer depends on the whole history and on which file systems are still alive; tests open one or two locations", "anchors": ["keramics-vfs/src/context.rs: VfsContext::open_file_system", "keramics-vfs/src/resolver.rs: VfsResolver::open_file_system", "keramics-vfs/src/location.rs: VfsLocation, to_string"]}
{"id": "C62", "title": "Digests, copies, timestamps and sizes of the tools are right", "statement": "The digest that the tools print is the hexadecimal text of the published digest of all the data from the position of the stream on, whatever the sizes of the pieces in which it is read; a copied stream is byte for byte what was read and a failed or short read or write is reported; every stream that was copied is kept. A timestamp in a bodyfile is the decimal number of seconds since 1970, negative ones included, for every kind of time a file system has. A size is shown in the largest unit that does not exceed it, for every size.", "quantifier": "all contents below 2^61 bytes, all sequences of piece sizes, all failures of reads and writes, all 64 bit times and sizes", "why_tests_cant": "contents, piece sizes and times are unbounded or too many; the tests hash one short text and format three recent times, none before 1970", "anchors": ["keramics-tools/src/bodyfile.rs: Bodyfile::calculate_md5, format_as_timestamp", "keramics-tools/src/hasher.rs: DigestHasher::calculate_hash_from_reader", "keramics-tools/src/hash_tool.rs: calculate_hash_from_data_stream", "keramics-tools/src/writer.rs: DataStreamWriter::write_data_stream", "keramics-tools/src/formatters.rs: format_as_bytesize"]}
{"id": "C63", "title": "Shown paths, modes and bodyfile lines can be told apart", "statement": "The tools show different paths as different texts, without control characters and without a panic; the text of a mode shows its type and its bits; a line of a bodyfile has eleven values between its bars and ends where the entry ends, whatever the names are.", "quantifier": "all paths of any number of names with any characters, of the three kinds of names that file systems have; all 16 bit modes; all values", "why_tests_cant": "whether escaping is unambiguous is a statement about all pairs of paths; tests escape a handful of single names", "anchors": ["keramics-tools/src/display_path.rs: DisplayPath::escape_string, join_path_components, get_character_translation_table", "keramics-tools/src/image_tool.rs: get_file_mode_string, print_file_entry_as_bodyfile"]}
{"id": "C64", "title": "A scan tells everything that is on a medium", "statement": "The scan of a file returns, without a panic and after finitely many levels, one tree that names each image, volume system, partition and file system on the medium at the location where it can be opened.", "quantifier": "all media: files that hold nothing known, a file system, a volume system with any number of partitions with anything in them, or an image of any number of layers with anything in it; all answers of the signature scanners and of the opened formats", "why_tests_cant": "nesting and the number of partitions and layers are unbounded; tests scan a few images", "anchors": ["keramics-vfs/src/scanner/scanner.rs: VfsScanner::scan, scan_for_format, scan_for_sub_nodes, scan_for_volume_system_format, scan_for_volume_system_sub_nodes, scan_for_storage_media_image_sub_nodes", "keramics-vfs/src/scanner/scan_node.rs: VfsScanNode"]}
{"id": "C65", "title": "The header values of an EWF image are the ones that were written", "statement": "The case number, description, examiner, notes, dates and the other header values of an EWF image are, for each of them, the first value written for it in its header and header2 sections, whatever compressor, line ends and byte order were used, and reading them never panics.", "quantifier": "all zlib streams of all texts with any number of codes and values in any order, both line ends, both byte orders, with or without mark, after any earlier sections; all bytes for the absence of panics", "why_tests_cant": "the tests read one header of each kind and look at none of its values", "anchors": ["keramics-formats/src/ewf/header.rs: EwfHeader::read_data", "keramics-formats/src/ewf/header2.rs: EwfHeader2::read_data", "keramics-formats/src/ewf/object_storage.rs: next_line, parse_date_value", "keramics-formats/src/ewf/image.rs: EwfImage::get_header_value"]}
{"id": "C66", "title": "The fake file system holds what was added to it", "statement": "After any history of adding files, a path leads to the file that was added under it and to nothing else; adding a second file under a path fails and changes nothing; those who read a file do not disturb each other.", "quantifier": "all histories of adding files of any data under any paths, all paths asked for, all sizes of reads", "why_tests_cant": "it is a statement about all histories; the tests add one file and ask for two paths", "anchors": ["keramics-vfs/src/fake/file_system.rs: FakeFileSystem::add_file_entry, file_entry_exists, get_file_entry_by_path", "keramics-vfs/src/fake/file_entry.rs: FakeFileEntry::new_file, get_data_stream"]}
{"id": "C67", "title": "The files an image names are looked for in the directory of the image", "statement": "A file resolver given a directory and names returns the file of those names in that directory and no file outside it; if there is no such file it answers so. Joining names to a VFS path puts them behind it as the file system writes names, or fails for names the file system cannot have, and the parent of the result is the path it was joined to.", "quantifier": "all directories, all sequences of path components of every kind, all contents of the file system", "why_tests_cant": "the names come from the images, so every name has to be considered, also absolute ones; the tests join one plain name", "anchors": ["keramics-formats/src/os_file_resolver.rs: OsFileResolver::get_data_stream", "keramics-formats/src/fake_file_resolver.rs: FakeFileResolver::get_data_stream", "keramics-vfs/src/file_resolver.rs: VfsFileResolver::get_data_stream", "keramics-vfs/src/path.rs: VfsPath::new_with_join, new_with_parent_directory, get_file_name"]}
{"id": "C68", "title": "File entries of the operating system say what the operating system says", "statement": "Asking the VFS for a path of the operating system gives an entry with the type, the times and the data of the file at that path, also of links, sockets and files of any time, or says that there is none.", "quantifier": "all contents of the operating system's file system: all modes, times, links and data; all paths", "why_tests_cant": "the tests open one file and cannot set its type or times; the claim is about every mode and every 64-bit time", "anchors": ["keramics-vfs/src/os/file_entry.rs: OsFileEntry::open, get_posix_datetime_value, get_data_stream", "keramics-vfs/src/file_system.rs: VfsFileSystem::file_entry_exists, get_file_entry_by_path"]}
{"id": "C69", "title": "The names of NTFS junctions", "statement": "Reading the data of a junction gives the substitute and the display name at the positions it states, or an error if they are not within the data, and never panics; what was read before is of no effect, and the reparse point of a file that is a junction has these names.", "quantifier": "all buffers of bytes, all earlier contents of the value, all resident reparse point attributes", "why_tests_cant": "the positions and sizes come from the volume; the tests read one sound buffer", "anchors": ["keramics-formats/src/ntfs/junction_reparse_data.rs: NtfsJunctionReparseData::read_data", "keramics-formats/src/ntfs/reparse_point.rs: NtfsReparsePoint::from_attribute, read_data"]}
{"id": "C70", "title": "Exporting a path writes its data stream of each file system of the image", "statement": "The export tool asks each file system that was found in an image, in order, for the path, and writes every stream that is there; a file system that fails does not keep the others from being exported, and all the streams are there afterwards.", "quantifier": "all trees of images, volumes and file systems of any depth, all answers of the file systems, all writers", "why_tests_cant": "the tool has no tests; the claim is about every nesting of volumes and every pattern of failures", "anchors": ["keramics-tools/src/export_tool.rs: ExportTool::export_data_stream_from_scan_node", "keramics-tools/src/writer.rs: DataStreamWriter::write_data_stream"]}
