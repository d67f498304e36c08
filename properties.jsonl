{"id": "C01", "title": "Object checksum is the APFS Fletcher-64", "statement": "For every object block the library accepts for checksumming (length a multiple of 4, at most 92680 32-bit words), the 64-bit checksum it computes is the APFS Fletcher-64 value: the unique pair of 32-bit words that, appended to the data, makes both running sums (sum and sum of sums, mod 2^32-1) equal to zero. Buffers whose length is not a multiple of 4 are rejected.", "quantifier": "all byte buffers and all initial values", "why_tests_cant": "The accumulators are 64-bit and reduced only once at the end; agreement has to hold for every content and every length up to the overflow bound.", "anchors": ["libfsapfs/libfsapfs_checksum.c: libfsapfs_checksum_calculate_fletcher64"]}
{"id": "C02", "title": "A stored checksum detects every single-word corruption", "statement": "If an object block verifies, then replacing any one aligned 32-bit word of the covered data by a different value makes verification fail, so that opening the container reports an error instead of using the corrupted block.", "quantifier": "all blocks, all word positions, all replacement values", "why_tests_cant": "There are 2^32 replacements for each of ~1000 word positions of each block.", "anchors": ["libfsapfs/libfsapfs_checksum.c: libfsapfs_checksum_calculate_fletcher64", "libfsapfs/libfsapfs_checkpoint_map.c: libfsapfs_checkpoint_map_read_data", "libfsapfs/libfsapfs_container_superblock.c: libfsapfs_container_superblock_read_data"]}
{"id": "C03", "title": "CRC-32C used for directory name hashes is the Castagnoli CRC", "statement": "The CRC the library computes over any buffer equals bit-by-bit polynomial division with the reflected Castagnoli polynomial 0x82f63b78 from the given initial value, and computing it in pieces gives the same value as computing it at once.", "quantifier": "all byte buffers, all initial values, all split points", "why_tests_cant": "A 256-entry table and a byte loop must agree with the bitwise definition for unboundedly many buffers.", "anchors": ["libfsapfs/libfsapfs_checksum.c: libfsapfs_checksum_initialize_crc32_table, libfsapfs_checksum_calculate_weak_crc32"]}
{"id": "C04", "title": "Adler-32 of decompressed data is the RFC 1950 value", "statement": "The Adler-32 value the library computes equals the RFC 1950 definition (two sums mod 65521) for every buffer and initial value, for every length, and no intermediate sum overflows 32 bits.", "quantifier": "all byte buffers of any length, all valid initial values", "why_tests_cant": "The deferred-modulo chunking (5552/16-byte unrolling) is only correct if no chunk overflows, for every content.", "anchors": ["libfsapfs/libfsapfs_deflate.c: libfsapfs_deflate_calculate_adler32"]}
{"id": "C05", "title": "The compressed bit reader delivers exactly the stream bits in order", "statement": "Reading a value of n bits from a DEFLATE stream returns the next n bits of the stream, least significant bit first, whatever mix of read sizes preceded it, never reads beyond the supplied data, and fails (without a value) when fewer than n bits are left.", "quantifier": "all data, all sequences of requested widths 0..32", "why_tests_cant": "The buffering of partial bytes depends on the whole history of earlier reads.", "anchors": ["libfsapfs/libfsapfs_bit_stream.c: libfsapfs_bit_stream_get_value"]}
{"id": "C06", "title": "Huffman decoding inverts canonical Huffman coding", "statement": "For every assignment of code lengths that is a prefix code (not over-subscribed), building a decoding tree succeeds and decoding the canonical RFC 1951 code word of a symbol followed by any bits returns that symbol and consumes exactly its code word; over-subscribed lengths are rejected; decoding never reads outside the symbol table.", "quantifier": "all code-length vectors of up to 1024 symbols and 15 bits, all symbols, all following bits", "why_tests_cant": "The number of prefix codes is astronomically large; off-by-one errors only show on particular length profiles.", "anchors": ["libfsapfs/libfsapfs_huffman_tree.c: libfsapfs_huffman_tree_build, libfsapfs_huffman_tree_get_symbol_from_bit_stream"]}
{"id": "C07", "title": "Decompression reproduces the original data", "statement": "Decompressing any stream made of stored, fixed-Huffman and dynamic-Huffman blocks that encodes a given sequence of literals and matches yields exactly the bytes that sequence expands to (RFC 1951), provided the output buffer is large enough.", "quantifier": "all token sequences, all block splits and kinds, all code tables", "why_tests_cant": "Unbounded space of streams; overlapping matches and table reuse across blocks depend on history.", "anchors": ["libfsapfs/libfsapfs_deflate.c: libfsapfs_deflate_decompress, libfsapfs_deflate_read_block, libfsapfs_deflate_decode_huffman"]}
{"id": "C08", "title": "Decompression is memory-safe and terminates on arbitrary input", "statement": "For every (possibly hostile) compressed buffer and every output buffer size, decompression terminates, never reads outside the input, never writes outside the output, never copies a match from before the start of the output, and returns success or an error.", "quantifier": "all byte buffers and all output sizes", "why_tests_cant": "Hostile inputs cannot be enumerated.", "anchors": ["libfsapfs/libfsapfs_deflate.c: libfsapfs_deflate_decode_huffman, libfsapfs_deflate_build_dynamic_huffman_trees, libfsapfs_deflate_decompress_zlib"]}
{"id": "C09", "title": "A damaged or truncated zlib stream is reported, never silently accepted", "statement": "If zlib decompression reports success then the stream contained a final block and the Adler-32 trailer was present and equal to the checksum of the returned bytes.", "quantifier": "all byte buffers", "why_tests_cant": "Truncation points and corruptions are unbounded in number.", "anchors": ["libfsapfs/libfsapfs_deflate.c: libfsapfs_deflate_decompress_zlib"]}
{"id": "C10", "title": "Every RFC 1951 stream is accepted", "statement": "A stream that is valid according to RFC 1951 (including a dynamic block that uses no distance codes, and streams with a single distance code) is decompressed, not rejected.", "quantifier": "all valid streams", "why_tests_cant": "Depends on the exact set of code tables an encoder can emit.", "anchors": ["libfsapfs/libfsapfs_deflate.c: libfsapfs_deflate_build_dynamic_huffman_trees", "libfsapfs/libfsapfs_huffman_tree.c: libfsapfs_huffman_tree_build"]}
{"id": "C11", "title": "Reading a compressed file returns the slice of its uncompressed content", "statement": "For a well-formed compressed file, reading n bytes at offset o returns bytes o..o+n of the concatenation of its decompressed blocks, clamped to the file size, independently of which blocks were read before.", "quantifier": "all block tables, all sizes including beyond 4 GiB, all sequences of seeks and reads", "why_tests_cant": "The one-block cache makes each read depend on all previous reads; large files exceed test images.", "anchors": ["libfsapfs/libfsapfs_compressed_data_handle.c: libfsapfs_compressed_data_handle_read_segment_data"]}
{"id": "C12", "title": "A failed read of a compressed file does not corrupt later reads", "statement": "If a read fails because one compressed block is damaged, a later read of a different undamaged block still returns that block's correct bytes.", "quantifier": "all histories of reads over files with some damaged blocks", "why_tests_cant": "Only particular orders (good block, damaged block, the same good block) expose stale-cache reuse.", "anchors": ["libfsapfs/libfsapfs_compressed_data_handle.c: libfsapfs_compressed_data_handle_read_segment_data"]}
{"id": "C13", "title": "Parsing the block table of a compressed file is memory-safe", "statement": "For every resource fork content, reading the compressed block table writes only inside its buffers and never underflows on an empty table; block sizes accepted by it never exceed the block buffer.", "quantifier": "all resource fork contents and sizes", "why_tests_cant": "Table length is a 32-bit attacker-controlled field.", "anchors": ["libfsapfs/libfsapfs_compressed_data_handle.c: libfsapfs_compressed_data_handle_get_compressed_block_offsets"]}
{"id": "C14", "title": "B-tree node parsing is memory-safe on arbitrary blocks", "statement": "For every block content, parsing a B-tree node never reads outside the block and either fails or yields keys and values that are sub-ranges of the block.", "quantifier": "all byte blocks of up to 65535 bytes", "why_tests_cant": "All header fields are attacker controlled and combined with 16-bit wrap-around arithmetic.", "anchors": ["libfsapfs/libfsapfs_btree_node.c: libfsapfs_btree_node_read_data", "libfsapfs/libfsapfs_btree_entry.c"]}
{"id": "C15", "title": "B-tree node parsing recovers exactly the stored records", "statement": "Parsing a node laid out according to the APFS format (any number of records with any keys and values that fit, fixed or variable size, root or non-root) returns exactly those records, in order.", "quantifier": "all record lists that fit in a block", "why_tests_cant": "Layout arithmetic has to be right for every number and size of records.", "anchors": ["libfsapfs/libfsapfs_btree_node.c: libfsapfs_btree_node_read_data"]}
{"id": "C16", "title": "Object map lookup returns the newest version not after the requested transaction", "statement": "On every well-formed object map B-tree, looking up an object identifier at a transaction returns the entry with the largest transaction not greater than the requested one, and reports not-found exactly when there is none.", "quantifier": "all well-formed trees of depth up to 256, all identifiers and transactions", "why_tests_cant": "Node boundaries and version chains give unboundedly many trees.", "anchors": ["libfsapfs/libfsapfs_object_map_btree.c: libfsapfs_object_map_btree_get_entry_from_node_by_identifier, libfsapfs_object_map_btree_get_entry_by_identifier"]}
{"id": "C17", "title": "File entry lookup by identifier finds exactly the inode with that identifier", "statement": "On every well-formed file system tree, requesting a file entry by identifier returns the inode record with exactly that identifier, and reports not-found when there is none.", "quantifier": "all well-formed trees, all 64-bit identifiers", "why_tests_cant": "Trees and identifiers are unbounded; type bits share the key word with the identifier.", "anchors": ["libfsapfs/libfsapfs_file_system_btree.c: libfsapfs_file_system_btree_get_entry_from_node_by_identifier, libfsapfs_file_system_btree_get_entry_by_identifier"]}
{"id": "C18", "title": "Directory enumeration is complete and exact", "statement": "On every well-formed file system tree, enumerating a directory returns every directory record of that directory, each exactly once, in key order, and none of another directory.", "quantifier": "all well-formed trees, all directory identifiers", "why_tests_cant": "A directory may straddle any number of nodes at any level.", "anchors": ["libfsapfs/libfsapfs_file_system_btree.c: libfsapfs_file_system_btree_get_directory_entries"]}
{"id": "C19", "title": "Extended attribute enumeration is complete and exact", "statement": "On every well-formed file system tree, enumerating the extended attributes of a file returns every attribute record of that file exactly once, in key order, and none of another file; a file without attributes yields an empty list, not an error.", "quantifier": "all well-formed trees, all identifiers", "why_tests_cant": "Straddling and boundary positions are unbounded.", "anchors": ["libfsapfs/libfsapfs_file_system_btree.c: libfsapfs_file_system_btree_get_attributes"]}
{"id": "C20", "title": "File extent enumeration is complete and exact", "statement": "On every well-formed file system tree, the extents used for reading a file are exactly the extent records of its data stream, in logical order.", "quantifier": "all well-formed trees, all identifiers", "why_tests_cant": "A file with many extents straddles any number of nodes.", "anchors": ["libfsapfs/libfsapfs_file_system_btree.c: libfsapfs_file_system_btree_get_file_extents"]}
{"id": "C21", "title": "Tree traversal terminates on cyclic or corrupt images", "statement": "For every image content (including B-tree nodes that point to themselves or to each other) each lookup and enumeration ends after following at most 257 child pointers on any path, with a result or an error.", "quantifier": "all node graphs", "why_tests_cant": "Cycles of any shape must be covered.", "anchors": ["libfsapfs/libfsapfs_object_map_btree.c", "libfsapfs/libfsapfs_file_system_btree.c", "libfsapfs/libfsapfs_definitions.h: LIBFSAPFS_MAXIMUM_BTREE_NODE_RECURSION_DEPTH"]}
{"id": "C22", "title": "Name lookup finds a directory entry exactly when one matches", "statement": "On every well-formed file system tree, looking up a name in a directory returns the record whose name equals the requested one (ignoring case on case-insensitive volumes), and reports not-found exactly when there is none.", "quantifier": "all well-formed trees, all names, both case modes", "why_tests_cant": "The outcome depends on where node boundaries fall relative to the name.", "anchors": ["libfsapfs/libfsapfs_file_system_btree.c: libfsapfs_file_system_btree_get_directory_record_from_branch_node_by_utf8_name"]}
{"id": "C23", "title": "Path resolution is component-wise lookup", "statement": "Resolving a path from a directory gives the same entry as looking up its separator-delimited components one after the other; the empty path and the single separator give the directory itself; a path component that does not exist gives not-found.", "quantifier": "all paths of any length and depth, all trees", "why_tests_cant": "Paths are unbounded; short paths are special-cased.", "anchors": ["libfsapfs/libfsapfs_file_system_btree.c: libfsapfs_file_system_btree_get_inode_by_utf8_path, libfsapfs_file_system_btree_get_inode_by_utf16_path"]}
{"id": "C24", "title": "Lookup by single name returns the entry that exists", "statement": "Retrieving an inode by name within a parent directory succeeds whenever a directory record with that name and its inode exist, and gives not-found otherwise.", "quantifier": "all trees, all names", "why_tests_cant": "Both outcomes of the inner lookup must be checked for each tree.", "anchors": ["libfsapfs/libfsapfs_file_system_btree.c: libfsapfs_file_system_btree_get_inode_by_utf8_name, libfsapfs_file_system_btree_get_inode_by_utf16_name"]}
{"id": "C25", "title": "Name comparison is a total order", "statement": "The three-way comparison of names is reflexive, antisymmetric and transitive and its equality is an equivalence, for both case modes, so that sorted search in a directory is well-defined.", "quantifier": "all pairs and triples of names", "why_tests_cant": "Order axioms quantify over all triples of strings.", "anchors": ["libfsapfs/libfsapfs_name.c: libfsapfs_name_compare_with_utf8_string"]}
{"id": "C26", "title": "Canonically equivalent names match", "statement": "Two spellings of a name that have the same Unicode canonical decomposition (after case folding where enabled) compare equal and have the same directory hash.", "quantifier": "all pairs of canonically equivalent names", "why_tests_cant": "All combining sequences of all characters.", "anchors": ["libfsapfs/libfsapfs_name.c: libfsapfs_name_compare_with_utf8_string", "libfsapfs/libfsapfs_name_hash.c: libfsapfs_name_hash_calculate_from_utf8_string"]}
{"id": "C27", "title": "UTF-8 and UTF-16 queries are interchangeable", "statement": "Looking up the same Unicode name given in UTF-8 or in UTF-16 computes the same directory hash and the same comparison result.", "quantifier": "all Unicode strings", "why_tests_cant": "Includes all surrogate pairs and multi-byte sequences.", "anchors": ["libfsapfs/libfsapfs_name_hash.c", "libfsapfs/libfsapfs_name.c"]}
{"id": "C28", "title": "Equal names have equal hashes", "statement": "If a requested name compares equal to a stored name (in the volume's case mode) then the hashes computed for both are equal, so hash filtering never hides a matching record.", "quantifier": "all pairs of names", "why_tests_cant": "All pairs of strings.", "anchors": ["libfsapfs/libfsapfs_name_hash.c", "libfsapfs/libfsapfs_name.c", "libfsapfs/libfsapfs_directory_record.c: libfsapfs_directory_record_compare_name_with_utf8_string"]}
{"id": "C29", "title": "Record parsers are memory-safe on arbitrary data", "statement": "Parsing inode, directory record, extended attribute, file extent and snapshot records never reads outside the supplied key or value, whatever the content, and loops over extended fields terminate.", "quantifier": "all byte strings", "why_tests_cant": "Counts and sizes are attacker controlled.", "anchors": ["libfsapfs/libfsapfs_inode.c: libfsapfs_inode_read_value_data", "libfsapfs/libfsapfs_directory_record.c: libfsapfs_directory_record_read_key_data, libfsapfs_directory_record_read_value_data", "libfsapfs/libfsapfs_attribute_values.c", "libfsapfs/libfsapfs_file_extent.c", "libfsapfs/libfsapfs_snapshot_metadata.c"]}
{"id": "C30", "title": "Directory record keys round-trip in both layouts", "statement": "For every parent identifier and every name of 1 to 1023 bytes, parsing the key laid out with or without a name hash returns the same name, and the hash when the layout has one.", "quantifier": "all names and hashes", "why_tests_cant": "The layout is guessed from sizes; the guess has to be right for every name.", "anchors": ["libfsapfs/libfsapfs_directory_record.c: libfsapfs_directory_record_read_key_data"]}
{"id": "C31", "title": "Inode and extent values round-trip", "statement": "The values reported for a file entry (identifiers, times, owner, group, mode, link count, flags, data size, device number, name) and for its extents equal those stored in its records, for every record.", "quantifier": "all field values and all lists of extended fields", "why_tests_cant": "64-bit value space and unbounded field lists.", "anchors": ["libfsapfs/libfsapfs_inode.c: libfsapfs_inode_read_value_data", "libfsapfs/libfsapfs_file_extent.c: libfsapfs_file_extent_read_value_data"]}
{"id": "C32", "title": "Device numbers decode to the encoded major and minor", "statement": "For a character or block device, the reported major and minor numbers are those encoded in the device identifier, in the encodings the library supports; for other file types none is reported.", "quantifier": "all 32-bit device identifiers and file modes", "why_tests_cant": "2^48 combinations.", "anchors": ["libfsapfs/libfsapfs_inode.c: libfsapfs_inode_get_device_number"]}
{"id": "C33", "title": "Reading a file returns its extents' bytes in order, with holes as zeros", "statement": "Reading n bytes at offset o of an uncompressed file returns, for every byte, the byte of the container block its extent maps that logical offset to, or zero in a hole of a sparse file, clamped to the file size.", "quantifier": "all extent lists, all offsets and sizes", "why_tests_cant": "Extent lists and read windows are unbounded.", "anchors": ["libfsapfs/libfsapfs_data_block_vector.c: libfsapfs_data_block_vector_initialize", "libfsapfs/libfsapfs_data_block_data_handle.c: libfsapfs_data_block_data_handle_read_segment_data", "libfsapfs/libfsapfs_file_system_data_handle.c: libfsapfs_file_system_data_handle_read_data_block"]}
{"id": "C34", "title": "Splitting a read does not change the bytes", "statement": "Reading a range in any sequence of smaller reads returns the same bytes as reading it at once, and a read never reports more bytes than were requested or than remain.", "quantifier": "all partitions of all ranges", "why_tests_cant": "Unbounded partitions.", "anchors": ["libfsapfs/libfsapfs_data_block_data_handle.c", "libfsapfs/libfsapfs_buffer_data_handle.c: libfsapfs_buffer_data_handle_read_segment_data"]}
{"id": "C35", "title": "Every file block is decrypted under its own sector numbers", "statement": "On an encrypted volume each block of a file is decrypted with the tweak sequence starting at (extent encryption identifier + block index in the extent) times sectors-per-block; encrypting then reading returns the original data for every extent layout.", "quantifier": "all extents, blocks, keys and contents", "why_tests_cant": "Tweak arithmetic must be right for all positions.", "anchors": ["libfsapfs/libfsapfs_file_system_data_handle.c: libfsapfs_file_system_data_handle_read_data_block", "libfsapfs/libfsapfs_data_block.c: libfsapfs_data_block_read", "libfsapfs/libfsapfs_encryption_context.c: libfsapfs_encryption_context_crypt"]}
{"id": "C36", "title": "Sector encryption is invertible and touches only the buffers", "statement": "Decrypting what was encrypted with the same keys and sector number returns the original buffer, each sector depends only on its own number and content, and no byte outside the input and output buffers is accessed, for every accepted size.", "quantifier": "all keys, sector numbers, sizes", "why_tests_cant": "All sizes and contents.", "anchors": ["libfsapfs/libfsapfs_encryption_context.c: libfsapfs_encryption_context_crypt"]}
{"id": "C37", "title": "Key unwrapping inverts RFC 3394 key wrapping", "statement": "For every key-encryption key and every wrapped key of n 64-bit words, unwrapping the RFC 3394 wrapping returns the integrity value and the original key.", "quantifier": "all keys and wrapped keys of any length", "why_tests_cant": "Key space.", "anchors": ["libfsapfs/libfsapfs_encryption_context.c: libfsapfs_encryption_aes_key_unwrap"]}
{"id": "C38", "title": "Password key derivation is PBKDF2-HMAC-SHA256", "statement": "The derived key equals RFC 2898 PBKDF2 for every password, salt, iteration count >= 1 and output length; zero iterations are rejected.", "quantifier": "all passwords, salts, counts, lengths", "why_tests_cant": "Unbounded inputs.", "anchors": ["libfsapfs/libfsapfs_password.c: libfsapfs_password_pbkdf2"]}
{"id": "C39", "title": "Key bag parsing is memory-safe and terminates", "statement": "For every decrypted key bag content, parsing the container or volume key bag terminates and reads only inside the supplied data, and every entry kept lies inside it.", "quantifier": "all byte buffers", "why_tests_cant": "Entry sizes are attacker controlled.", "anchors": ["libfsapfs/libfsapfs_container_key_bag.c: libfsapfs_container_key_bag_read_data", "libfsapfs/libfsapfs_volume_key_bag.c: libfsapfs_volume_key_bag_read_data", "libfsapfs/libfsapfs_key_bag_entry.c: libfsapfs_key_bag_entry_read_data"]}
{"id": "C40", "title": "Key bag entries round-trip", "statement": "A key bag laid out according to the APFS format with any list of entries is parsed to exactly those entries, in order.", "quantifier": "all entry lists", "why_tests_cant": "Padding depends on every entry size.", "anchors": ["libfsapfs/libfsapfs_container_key_bag.c", "libfsapfs/libfsapfs_volume_key_bag.c", "libfsapfs/libfsapfs_key_bag_entry.c"]}
{"id": "C41", "title": "Parsing a packed key object is memory-safe", "statement": "For every key bag entry payload, parsing the DER-encoded key object reads only inside the payload.", "quantifier": "all byte buffers", "why_tests_cant": "Truncation inside a tag or length can happen at any byte.", "anchors": ["libfsapfs/libfsapfs_key_encrypted_key.c: libfsapfs_key_encrypted_key_read_data"]}
{"id": "C42", "title": "The correct password unlocks, a wrong one does not", "statement": "Unlocking with the password or recovery key that wrapped the volume key succeeds and yields the volume key, whichever key bag entry it belongs to; when no entry matches, the volume stays locked and no error is raised.", "quantifier": "all key bags with any number of users, all passwords", "why_tests_cant": "Number and order of entries are unbounded.", "anchors": ["libfsapfs/libfsapfs_volume_key_bag.c: libfsapfs_volume_key_bag_get_volume_key", "libfsapfs/libfsapfs_key_encrypted_key.c: libfsapfs_key_encrypted_key_unlock_with_password", "libfsapfs/libfsapfs_volume.c: libfsapfs_internal_volume_unlock"]}
{"id": "C43", "title": "Unlock attempts do not influence later attempts", "statement": "After any sequence of failed unlock attempts, setting the correct password and unlocking succeeds just as on a freshly opened volume; once unlocked a volume stays unlocked.", "quantifier": "all sequences of set-password and unlock calls", "why_tests_cant": "Histories are unbounded.", "anchors": ["libfsapfs/libfsapfs_volume.c: libfsapfs_volume_unlock, libfsapfs_volume_set_utf8_password"]}
{"id": "C44", "title": "Setting a password uses exactly the given characters", "statement": "Setting a UTF-8 password of a given length stores exactly that many bytes, independent of what follows them in memory, without writing outside the allocated buffer.", "quantifier": "all strings and lengths", "why_tests_cant": "Embedded zero bytes and missing terminators.", "anchors": ["libfsapfs/libfsapfs_volume.c: libfsapfs_internal_volume_set_utf8_password, libfsapfs_internal_volume_set_utf8_recovery_password"]}
{"id": "C45", "title": "UTF-16 and UTF-8 passwords are interchangeable", "statement": "Setting a password given in UTF-16 derives the same key as setting the same password in UTF-8.", "quantifier": "all passwords of any length", "why_tests_cant": "Depends on the length relative to the HMAC block size.", "anchors": ["libfsapfs/libfsapfs_volume.c: libfsapfs_internal_volume_set_utf16_password"]}
{"id": "C46", "title": "Opening selects the newest valid checkpoint", "statement": "Opening a container uses the superblock with the largest transaction identifier among the valid superblocks of block 0 and the checkpoint descriptor area.", "quantifier": "all descriptor area contents", "why_tests_cant": "Ring position and order of checkpoints are unbounded.", "anchors": ["libfsapfs/libfsapfs_container.c: libfsapfs_internal_container_open_read"]}
{"id": "C47", "title": "A crash while writing a checkpoint leaves the container openable", "statement": "If writing of a new checkpoint stops at any point (any prefix of its blocks written, the last one possibly torn), opening still succeeds with the previous or the new checkpoint, and the checkpoint map used belongs to the same transaction as the superblock used.", "quantifier": "all crash points of all checkpoint writes", "why_tests_cant": "Crash points are not reachable from a test of intact images.", "anchors": ["libfsapfs/libfsapfs_container.c: libfsapfs_internal_container_open_read"]}
{"id": "C48", "title": "Every volume is reachable by index", "statement": "The number of volumes equals the number of volume identifiers stored in the container, and indices 0..n-1 return each of these volumes exactly once.", "quantifier": "all superblocks (any occupied slots)", "why_tests_cant": "Slot patterns: 2^100.", "anchors": ["libfsapfs/libfsapfs_container_superblock.c: libfsapfs_container_superblock_read_data", "libfsapfs/libfsapfs_container.c: libfsapfs_container_get_volume_by_index"]}
{"id": "C49", "title": "Checkpoint map lookup returns the mapped address", "statement": "For every valid checkpoint map block, looking up an object identifier returns the physical address of the first entry with that identifier, and not-found when there is none; parsing never reads outside the block.", "quantifier": "all map blocks", "why_tests_cant": "All contents.", "anchors": ["libfsapfs/libfsapfs_checkpoint_map.c: libfsapfs_checkpoint_map_read_data, libfsapfs_checkpoint_map_get_physical_address_by_object_identifier"]}
{"id": "C50", "title": "Every API call releases the locks it takes", "statement": "After any sequence of calls on a handle, including calls with invalid arguments, no lock is left held, so a following call from any thread does not block forever.", "quantifier": "all call histories and error paths", "why_tests_cant": "Only particular error paths leak a lock; blocking is not observable by return values.", "anchors": ["libfsapfs/libfsapfs_volume.c: libfsapfs_volume_get_snapshot_by_index"]}
{"id": "C51", "title": "File entries of one volume can be used from different threads", "statement": "Operations on different file entries of the same volume issued concurrently give the same results as issued one after the other.", "quantifier": "all interleavings", "why_tests_cant": "Interleavings cannot be enumerated by tests.", "anchors": ["libfsapfs/libfsapfs_file_entry.c", "libfsapfs/libfsapfs_file_system_btree.c: libfsapfs_file_system_btree_get_sub_node"]}
{"id": "C52", "title": "Snapshot names are read within their storage", "statement": "Retrieving a snapshot name reads only the bytes stored for that snapshot name.", "quantifier": "all snapshot records", "why_tests_cant": "Names of any length, with or without terminator.", "anchors": ["libfsapfs/libfsapfs_snapshot_metadata.c: libfsapfs_snapshot_metadata_get_utf8_name_size, libfsapfs_snapshot_metadata_read_value_data"]}
{"id": "C53", "title": "Snapshot enumeration is complete", "statement": "The list of snapshots of a volume contains exactly the snapshot metadata records of its snapshot tree, in order, for trees of any depth.", "quantifier": "all well-formed snapshot metadata trees", "why_tests_cant": "Depth and size unbounded.", "anchors": ["libfsapfs/libfsapfs_snapshot_metadata_tree.c: libfsapfs_snapshot_metadata_tree_get_snapshots"]}
{"id": "C54", "title": "A B-tree lookup result does not depend on earlier lookups", "statement": "Looking up an object gives the same result whatever lookups were made before on the same handle.", "quantifier": "all images, all lookup histories", "why_tests_cant": "Node caches carry state between calls.", "anchors": ["libfsapfs/libfsapfs_object_map_btree.c: libfsapfs_object_map_btree_get_root_node, libfsapfs_object_map_btree_get_sub_node"]}
{"id": "C55", "title": "Directory entry and extended attribute records round-trip", "statement": "The inode identifier and time reported for a directory entry, and the name and content (inline bytes, or data stream identifier and size) reported for an extended attribute, equal those stored in the record.", "quantifier": "all field values, names, contents and lists of extended fields", "why_tests_cant": "Needs all field values and layouts.", "anchors": ["libfsapfs/libfsapfs_directory_record.c: libfsapfs_directory_record_read_value_data", "libfsapfs/libfsapfs_attribute_values.c: libfsapfs_attribute_values_read_key_data, libfsapfs_attribute_values_read_value_data"]}
{"id": "C56", "title": "Paths in UTF-8 and in UTF-16 lead to the same entry", "statement": "Looking up a path given in UTF-8 gives the same result as looking up the same path in UTF-16.", "quantifier": "all images, all paths of Unicode characters", "why_tests_cant": "The two functions are separate code; they treat short strings by their number of bytes and of 16-bit units.", "anchors": ["libfsapfs/libfsapfs_file_system_btree.c: libfsapfs_file_system_btree_get_inode_by_utf8_path, libfsapfs_file_system_btree_get_inode_by_utf16_path"]}
{"id": "C57", "title": "Packed key objects round-trip", "statement": "A key encrypted key stored as a DER packed key object is parsed to exactly its integrity value, identifier, encryption method, wrapped key, number of iterations and salt.", "quantifier": "all field values, all encodings of the iteration count", "why_tests_cant": "Needs all field values and lengths.", "anchors": ["libfsapfs/libfsapfs_key_encrypted_key.c: libfsapfs_key_encrypted_key_read_data"]}
{"id": "C58", "title": "A volume reported as unlocked has its keys", "statement": "When unlocking a locked volume reports success, the volume keys were recovered with one of the given passwords.", "quantifier": "all key bags, all passwords, all call sequences", "why_tests_cant": "Depends on which key bags could be read and on the passwords.", "anchors": ["libfsapfs/libfsapfs_volume.c: libfsapfs_volume_unlock, libfsapfs_internal_volume_unlock, libfsapfs_internal_volume_open_read"]}
{"id": "C59", "title": "Opening an untrusted container is safe", "statement": "Opening any device, whatever its blocks contain, ends with a container or an error, without reading outside a buffer and without an endless loop; so does getting a volume by index of an opened container.", "quantifier": "all devices", "why_tests_cant": "Images are unbounded and adversarial.", "anchors": ["libfsapfs/libfsapfs_container.c: libfsapfs_internal_container_open_read, libfsapfs_container_get_volume_by_index"]}
{"id": "C60", "title": "Reading with any extents is memory safe and ends", "statement": "For any list of extents found in an image, overlapping, out of order, wrapping or off the device, opening the data stream of a file and any sequence of reads and seeks on it returns data or errors: no access outside a buffer and no endless loop.", "quantifier": "all extent lists, all devices, all sequences of calls", "why_tests_cant": "Extents are read from untrusted images.", "anchors": ["libfsapfs/libfsapfs_data_block_vector.c: libfsapfs_data_block_vector_initialize", "libfsapfs/libfsapfs_data_block_data_handle.c: libfsapfs_data_block_data_handle_read_segment_data", "libfsapfs/libfsapfs_file_system_data_handle.c: libfsapfs_file_system_data_handle_read_data_block"]}
{"id": "C61", "title": "A volume superblock is accepted exactly when it is valid", "statement": "A block is accepted as superblock of a volume (or of a snapshot) if and only if it has the object type of a volume (snapshot) superblock, the signature APSB and a correct checksum; the identifiers, features, tree locations and name reported are then exactly those stored.", "quantifier": "all blocks", "why_tests_cant": "All contents of a block, including every corruption of a valid superblock.", "anchors": ["libfsapfs/libfsapfs_volume_superblock.c: libfsapfs_volume_superblock_read_data, libfsapfs_volume_superblock_read_file_io_handle"]}
{"id": "C62", "title": "Opening a volume gives the state recorded on disk", "statement": "For a consistent volume, opening it succeeds; its superblock, object map, key bag, locked state, snapshots and name are those recorded on disk; it is reported locked exactly if it has a key bag.", "quantifier": "all consistent volumes", "why_tests_cant": "Needs every layout of object map, key bag and snapshot tree.", "anchors": ["libfsapfs/libfsapfs_volume.c: libfsapfs_internal_volume_open_read", "libfsapfs/libfsapfs_volume_key_bag.c: libfsapfs_volume_key_bag_read_file_io_handle", "libfsapfs/libfsapfs_volume_superblock.c: libfsapfs_volume_superblock_get_utf8_volume_name"]}
{"id": "C63", "title": "Opening volumes and snapshots is safe on any device", "statement": "For any device contents, opening a volume or one of its snapshots and reading the volume name returns a result or an error: no access outside a buffer and no endless loop.", "quantifier": "all devices, all block numbers, all key bags of the container", "why_tests_cant": "Superblocks, object maps and key bags are read from untrusted images.", "anchors": ["libfsapfs/libfsapfs_volume.c: libfsapfs_internal_volume_open_read", "libfsapfs/libfsapfs_snapshot.c: libfsapfs_internal_snapshot_open_read", "libfsapfs/libfsapfs_volume_superblock.c"]}
{"id": "C64", "title": "A snapshot opens its own superblock", "statement": "Opening a snapshot uses the superblock in the block recorded for it in the snapshot metadata; an index out of range is an error.", "quantifier": "all snapshot records, all block numbers", "why_tests_cant": "Block numbers up to 64 bits cannot be covered by small images.", "anchors": ["libfsapfs/libfsapfs_snapshot_metadata.c: libfsapfs_snapshot_metadata_read_value_data", "libfsapfs/libfsapfs_volume.c: libfsapfs_volume_get_snapshot_by_index", "libfsapfs/libfsapfs_snapshot.c: libfsapfs_internal_snapshot_open_read"]}
{"id": "C65", "title": "A B-tree node is not used after it was freed", "statement": "While a directory, attribute or extent enumeration or an inode lookup runs, the nodes it uses stay allocated: however many nodes the tree has and whatever was called before, no call uses a node that the node cache has released.", "quantifier": "all trees of any number of nodes, all call histories", "why_tests_cant": "Needs a tree with more nodes than the cache has entries (8192) and a memory checker.", "anchors": ["libfsapfs/libfsapfs_file_system_btree.c: libfsapfs_file_system_btree_get_sub_node", "libfsapfs/libfsapfs_file_system_btree.c: libfsapfs_file_system_btree_get_directory_entries_from_branch_node"]}
{"id": "C66", "title": "An open file behaves like its bytes", "statement": "For a file stored as it is, encrypted or compressed, any sequence of calls on its entry (size, read, read at an offset, seek, offset, extents, number of attributes, symbolic link target) gives the answers of an array of its bytes with one position: what is read does not depend on earlier calls.", "quantifier": "all file systems, all files and their attributes and extents, all sequences of calls", "why_tests_cant": "The number of call sequences is unbounded, and the fields of an entry are filled in by whichever call comes first.", "anchors": ["libfsapfs/libfsapfs_file_entry.c: libfsapfs_internal_file_entry_get_data_stream", "libfsapfs/libfsapfs_file_entry.c: libfsapfs_internal_file_entry_get_data_size", "libfsapfs/libfsapfs_file_entry.c: libfsapfs_internal_file_entry_get_extended_attributes", "libfsapfs/libfsapfs_file_entry.c: libfsapfs_file_entry_read_buffer", "libfsapfs/libfsapfs_attributes.c"]}
{"id": "C67", "title": "An extended attribute is found by its name and has its value", "statement": "The extended attribute of a name, given in UTF-8 or UTF-16, is found exactly when the file has an attribute of that name; its size is the size of its value and reading it at any offset gives the bytes of the value.", "quantifier": "all files, all names, all attribute values in the record or in a data stream, all offsets and sizes", "why_tests_cant": "Names and values are arbitrary; names that need care in decoding are rare in test images.", "anchors": ["libfsapfs/libfsapfs_file_entry.c: libfsapfs_file_entry_get_extended_attribute_by_utf8_name", "libfsapfs/libfsapfs_attributes.c: libfsapfs_attributes_get_data_stream", "libfsapfs/libfsapfs_extended_attribute.c"]}
{"id": "C68", "title": "A directory lists its entries with their names", "statement": "However often and in whatever order the number of sub entries and the sub entries of a directory are asked for, the number is that of its directory records and sub entry i is the inode and the name of record i; an index out of range is an error. The name of a sub entry, in UTF-8 and UTF-16, is the name in its record, and the reported size is what the string needs.", "quantifier": "all well-formed file system trees, all directories, all sequences of calls, all names and string sizes", "why_tests_cant": "The list is cached on the first call; the tests open fixed images with a handful of ASCII names.", "anchors": ["libfsapfs/libfsapfs_file_entry.c: libfsapfs_file_entry_get_number_of_sub_file_entries", "libfsapfs/libfsapfs_file_entry.c: libfsapfs_file_entry_get_sub_file_entry_by_index", "libfsapfs/libfsapfs_file_entry.c: libfsapfs_file_entry_get_utf8_name", "libfsapfs/libfsapfs_directory_record.c: libfsapfs_directory_record_get_utf8_name"]}
{"id": "C69", "title": "What a directory lists can be opened by name", "statement": "Looking up the name of a listed sub entry in its directory, in UTF-8 or UTF-16, gives that sub entry; a name under which nothing is listed is not found.", "quantifier": "all well-formed file system trees, directories, names", "why_tests_cant": "Listing and lookup are separate code paths (enumeration by identifier, search by hash and comparison, splitting of paths) that have to agree for every name.", "anchors": ["libfsapfs/libfsapfs_file_entry.c: libfsapfs_file_entry_get_sub_file_entry_by_utf8_name", "libfsapfs/libfsapfs_file_entry.c: libfsapfs_file_entry_get_sub_file_entry_by_index", "libfsapfs/libfsapfs_file_system.c: libfsapfs_file_system_get_file_entry_by_utf8_path"]}
{"id": "C70", "title": "The parent of a sub entry is the directory it was found in", "statement": "The parent file entry of a sub entry of a directory is that directory; the root directory has no parent.", "quantifier": "all well-formed file system trees, directories, entries", "why_tests_cant": "A file with several links has several directory records but one inode; needs images with hard links across directories.", "anchors": ["libfsapfs/libfsapfs_file_entry.c: libfsapfs_file_entry_get_parent_file_entry"]}
{"id": "C71", "title": "What was done with a volume before does not change what a lookup finds", "statement": "After any sequence of password, unlock and lookup calls on an open volume, a lookup by identifier or by path gives what the file system tree on the device gives under the keys of the volume, as on a volume that was just opened and unlocked; as long as the volume is locked a lookup gives an error and no file entry.", "quantifier": "all device contents, all sequences of calls, all cache replacement policies", "why_tests_cant": "Blocks and nodes are cached across calls and the keys change in between; the tests open each volume once and never look something up before unlocking it.", "anchors": ["libfsapfs/libfsapfs_volume.c: libfsapfs_internal_volume_get_file_system", "libfsapfs/libfsapfs_volume.c: libfsapfs_volume_get_file_entry_by_utf8_path", "libfsapfs/libfsapfs_volume.c: libfsapfs_internal_volume_unlock", "libfsapfs/libfsapfs_file_system_btree.c: libfsapfs_file_system_btree_get_root_node", "libfsapfs/libfsapfs_file_system_data_handle.c: libfsapfs_file_system_data_handle_read_data_block"]}
{"id": "C72", "title": "A lookup unlocks the volume with the passwords that are set", "statement": "A lookup on a locked volume gives the same as unlock followed by the lookup, whatever was called before.", "quantifier": "all volumes, all sequences of calls before the lookup", "why_tests_cant": "The order of calls matters, and the implicit unlock happens only while the file system has not been determined yet.", "anchors": ["libfsapfs/libfsapfs_volume.c: libfsapfs_internal_volume_get_file_system", "libfsapfs/libfsapfs_volume.c: libfsapfs_volume_get_file_entry_by_utf8_path", "libfsapfs/libfsapfs_volume.c: libfsapfs_volume_set_utf8_password"]}
{"id": "C73", "title": "A file is read as the device has it", "statement": "For a file on a volume of a well-formed container, encrypted or not: opening the container and the volume, setting the passwords, looking the file up by its path and reading it gives the size and the bytes that are on the device, for any reads and seeks.", "quantifier": "all well-formed devices, volumes, passwords, paths, files, sequences of calls on the file, cache replacement policies", "why_tests_cant": "The whole chain has to fit together: checkpoint, object maps, key bags, key unwrapping, block decryption, tree, names, extents, decompression. The tests take a few images one step at a time.", "anchors": ["libfsapfs/libfsapfs_container.c: libfsapfs_container_open", "libfsapfs/libfsapfs_container.c: libfsapfs_container_get_volume_by_index", "libfsapfs/libfsapfs_volume.c: libfsapfs_volume_get_file_entry_by_utf8_path", "libfsapfs/libfsapfs_file_entry.c: libfsapfs_file_entry_read_buffer"]}
{"id": "C74", "title": "The names of a mounted volume tell the stored names apart", "statement": "fsapfsmount shows every file name as a text of characters that can be shown and without the path separator; different names are shown differently, and a path of shown names is read back as the path of the stored names. No text makes the functions that write or read such names use memory outside of their strings.", "quantifier": "all file names, all paths, all byte strings given by the operating system", "why_tests_cant": "Names may have control characters, separators, backslashes and any Unicode character; the text grows while it is escaped and its size is computed apart from it. The tests of the tools list a few images.", "anchors": ["fsapfstools/mount_path_string.c: mount_path_string_copy_from_file_entry_path", "fsapfstools/mount_path_string.c: mount_path_string_copy_to_file_entry_path", "fsapfstools/path_string.c"]}
{"id": "C75", "title": "What is listed in a mounted volume can be opened", "statement": "In a volume mounted with fsapfsmount, the path of the names that are listed for the directories above an entry and for the entry itself opens that entry.", "quantifier": "all well-formed file system trees, all directories and names", "why_tests_cant": "Listing and opening are different code: names are escaped one by one and unescaped as a path, which is then split, hashed and searched.", "anchors": ["fsapfstools/mount_handle.c: mount_handle_get_file_entry_by_path", "fsapfstools/mount_file_entry.c: mount_file_entry_get_filename", "fsapfstools/mount_path_string.c"]}
{"id": "C76", "title": "A path that fsapfsinfo prints selects the entry it was printed for", "statement": "The path that fsapfsinfo prints for an entry of a volume (after the volume identifier), given back as the path option, selects that entry.", "quantifier": "all well-formed file system trees, all entries and names", "why_tests_cant": "Printing escapes names and joins them; reading unescapes a whole path, splits it and searches for every part. Names are arbitrary.", "anchors": ["fsapfstools/info_handle.c: info_handle_file_system_hierarchy_fprint_file_entry", "fsapfstools/info_handle.c: info_handle_file_entry_fprint_by_path", "fsapfstools/path_string.c"]}
{"id": "C77", "title": "A line of a bodyfile says what the file is", "statement": "The line that fsapfsinfo writes for a file into a bodyfile is one line of eleven fields: the MD5 of the data, the escaped path, which determines the path, the identifier, the mode as letters, owner, group, size and the four times in seconds with nine decimals.", "quantifier": "all files and their data, attributes, modes, owners, sizes, times, paths", "why_tests_cant": "The fields come from the image and are printed next to separators; a name or a target made for the purpose can imitate other lines. The tests compare no output.", "anchors": ["fsapfstools/info_handle.c: info_handle_bodyfile_fprint_file_entry_value", "fsapfstools/bodyfile.c", "fsapfstools/digest_hash.c"]}
{"id": "C78", "title": "The hierarchy of a volume lists every entry once", "statement": "fsapfsinfo prints for a volume (as a hierarchy or as a bodyfile) exactly one line for the root directory and for every chain of entries that starts in it, each with the path of the names of the chain, and comes to an end.", "quantifier": "all well-formed file system trees", "why_tests_cant": "The listing recurses over directory records of the image; whether it ends and misses nothing depends on trees of any depth and shape.", "anchors": ["fsapfstools/info_handle.c: info_handle_file_system_hierarchy_fprint_file_entry", "fsapfstools/info_handle.c: info_handle_file_system_hierarchy_fprint"]}
{"id": "C79", "title": "A number in an option is the number that is used", "statement": "A decimal numeral given to fsapfsinfo as an identifier is taken as its value or refused; anything else is refused.", "quantifier": "all texts", "why_tests_cant": "Texts of any length, and values around 2^64.", "anchors": ["fsapfstools/info_handle.c: info_handle_system_string_copy_from_64_bit_in_decimal"]}
{"id": "C80", "title": "The dates of a file in Python are the dates of its times", "statement": "The creation, modification, access, change and added times of a file entry in Python are the date and time of day (UTC, in microseconds) of the stored nanoseconds since 1970.", "quantifier": "all stored times", "why_tests_cant": "The date is counted off in loops over centuries, years and months; which days go wrong only shows on those days.", "anchors": ["pyfsapfs/pyfsapfs_datetime.c: pyfsapfs_datetime_new_from_time_elements", "pyfsapfs/pyfsapfs_datetime.c: pyfsapfs_datetime_new_from_posix_time_in_micro_seconds", "pyfsapfs/pyfsapfs_file_entry.c: pyfsapfs_file_entry_get_modification_time"]}
{"id": "C81", "title": "A file entry in Python is a file object", "statement": "read, read_buffer_at_offset, seek, tell and size of a file entry in Python behave as those of a file object with the bytes of the file, for any sequence of calls: read gives at most as many bytes as asked for, and all that is left without a size or with a negative one.", "quantifier": "all files, all sequences of calls and arguments", "why_tests_cant": "Sizes, positions and the order of calls are unlimited; sizes near 2^31 need files that the tests do not have.", "anchors": ["pyfsapfs/pyfsapfs_file_entry.c: pyfsapfs_file_entry_read_buffer", "pyfsapfs/pyfsapfs_file_entry.c: pyfsapfs_file_entry_read_buffer_at_offset", "pyfsapfs/pyfsapfs_file_entry.c: pyfsapfs_file_entry_seek_offset", "pyfsapfs/pyfsapfs_integer.c: pyfsapfs_integer_signed_copy_to_64bit"]}
{"id": "C82", "title": "A container can be read from any Python file object", "statement": "A container opened with a Python file object reads, at every offset, the bytes of that object, and its size; an object that does not keep to the protocol gives errors, and no memory outside of the buffers is written.", "quantifier": "all file objects, all sequences of calls", "why_tests_cant": "The object is arbitrary code. The tests use files and BytesIO, which keep to the protocol.", "anchors": ["pyfsapfs/pyfsapfs_file_object_io_handle.c: pyfsapfs_file_object_read_buffer", "pyfsapfs/pyfsapfs_file_object_io_handle.c: pyfsapfs_file_object_io_handle_seek_offset", "pyfsapfs/pyfsapfs_file_object_io_handle.c: pyfsapfs_file_object_io_handle_get_size"]}
{"id": "C83", "title": "The entries of a directory in Python are a sequence", "statement": "The sequence of sub entries of a file entry in Python has the length, the items and the order of the entries; every loop over it gives all of them, and an index out of range is an IndexError.", "quantifier": "all sequences, all uses of one sequence", "why_tests_cant": "The sequence object keeps a position between uses; a test that loops once does not see it.", "anchors": ["pyfsapfs/pyfsapfs_file_entries.c: pyfsapfs_file_entries_iter", "pyfsapfs/pyfsapfs_file_entries.c: pyfsapfs_file_entries_iternext", "pyfsapfs/pyfsapfs_file_entries.c: pyfsapfs_file_entries_getitem"]}
{"id": "C84", "title": "stat on a mounted volume gives the values of the file", "statement": "getattr on the mounted volume gives for every path the size of the file (of a symbolic link the length of its target), its mode, number of links, and its access, change and modification time in whole seconds.", "quantifier": "all volumes, all paths", "why_tests_cant": "The values depend on what is stored; images with times before 1970, several links or odd types are not in the tests, and mounting is not tested at all.", "anchors": ["fsapfstools/mount_fuse.c: mount_fuse_set_stat_info", "fsapfstools/mount_fuse.c: mount_fuse_getattr", "fsapfstools/mount_file_entry.c: mount_file_entry_get_file_mode"]}
{"id": "C85", "title": "read and readlink on a mounted volume give the bytes and the target", "statement": "read on the mounted volume gives the bytes of the file at any offset, in any sequence of reads, and readlink the target of a symbolic link, cut to the size of the buffer.", "quantifier": "all files, all sequences of reads, all buffer sizes", "why_tests_cant": "The kernel chooses sizes, offsets and order of the reads.", "anchors": ["fsapfstools/mount_fuse.c: mount_fuse_read", "fsapfstools/mount_fuse.c: mount_fuse_readlink", "fsapfstools/mount_file_entry.c: mount_file_entry_read_buffer_at_offset"]}
{"id": "C86", "title": "Extended attributes on a mounted volume", "statement": "listxattr gives the names of all extended attributes and getxattr the value of each, with the length for size 0, ERANGE for a buffer that is too small and ENODATA for a name that is not there.", "quantifier": "all files, names and buffer sizes", "why_tests_cant": "The boundary between a buffer that is large enough and one that is not is different for every file.", "anchors": ["fsapfstools/mount_fuse.c: mount_fuse_getxattr", "fsapfstools/mount_fuse.c: mount_fuse_listxattr"]}
{"id": "C87", "title": "A directory of a mounted volume lists all its entries", "statement": "readdir gives the directory itself, its parent and every entry once, in the order of the records, under the name that opens it and with the values that getattr gives for it.", "quantifier": "all volumes, all directories", "why_tests_cant": "Directories have any number of entries and names; the parent is shown as well, which depends on another inode.", "anchors": ["fsapfstools/mount_fuse.c: mount_fuse_readdir", "fsapfstools/mount_fuse.c: mount_fuse_filldir", "fsapfstools/mount_file_entry.c: mount_file_entry_get_parent_file_entry", "fsapfstools/mount_file_entry.c: mount_file_entry_get_sub_file_entry_by_index"]}
{"id": "C88", "title": "Memory that was given back is not touched", "statement": "A program that calls the functions of the library with objects it has not freed yet never makes the library use memory that was given back, or give memory back twice.", "quantifier": "all programs: any sequence of calls on any number of containers, volumes, file entries, attributes, snapshots and file IO handles", "why_tests_cant": "A use after free may go unnoticed when it happens, and whether one is possible depends on the order of all calls of a program.", "anchors": ["libfsapfs/libfsapfs_container.c: libfsapfs_container_close", "libfsapfs/libfsapfs_container.c: libfsapfs_container_get_volume_by_index", "libfsapfs/libfsapfs_volume.c: libfsapfs_volume_free", "libfsapfs/libfsapfs_file_entry.c: libfsapfs_file_entry_free", "libfsapfs/libfsapfs_extended_attribute.c: libfsapfs_extended_attribute_initialize", "libfsapfs/libfsapfs_snapshot.c: libfsapfs_snapshot_free"]}
{"id": "C89", "title": "What was freed is given back", "statement": "When a program has freed all objects it got, in any order, no memory of the library is left allocated.", "quantifier": "all programs whose calls keep the order that C88 asks for, followed by the final calls in any order", "why_tests_cant": "What is allocated depends on which values were built on first use and on the order of the calls.", "anchors": ["libfsapfs/libfsapfs_container.c: libfsapfs_container_free", "libfsapfs/libfsapfs_volume.c: libfsapfs_volume_free", "libfsapfs/libfsapfs_file_entry.c: libfsapfs_file_entry_free", "libfsapfs/libfsapfs_snapshot.c: libfsapfs_snapshot_free", "libfsapfs/libfsapfs_snapshot.c: libfsapfs_internal_snapshot_open_read"]}
{"id": "C90", "title": "Python objects keep what they need", "statement": "A Python program, whichever references it keeps or drops in which order, never makes the library use memory that was given back.", "quantifier": "all Python programs over containers, volumes, file entries, extended attributes and their sequences", "why_tests_cant": "Reference counts depend on the whole history of a program; the collector of Python may drop objects in any order.", "anchors": ["pyfsapfs/pyfsapfs_container.c: pyfsapfs_container_open_file_object", "pyfsapfs/pyfsapfs_container.c: pyfsapfs_container_close", "pyfsapfs/pyfsapfs_volume.c: pyfsapfs_volume_free", "pyfsapfs/pyfsapfs_file_entry.c: pyfsapfs_file_entry_get_sub_file_entry_by_index", "pyfsapfs/pyfsapfs_volumes.c: pyfsapfs_volumes_free"]}
{"id": "C91", "title": "Python objects are given back with the last reference", "statement": "When a Python program that keeps the rules of C90 has dropped all its references no memory of the library is left allocated, and what a reference is left to is not freed before, with all it was got from.", "quantifier": "all Python programs in which a container is closed after what was got from it was dropped and opened with one file object at a time", "why_tests_cant": "A leak shows only over many runs; reference counts depend on the whole history of a program.", "anchors": ["pyfsapfs/pyfsapfs_container.c: pyfsapfs_container_free", "pyfsapfs/pyfsapfs_volume.c: pyfsapfs_volume_free", "pyfsapfs/pyfsapfs_file_entry.c: pyfsapfs_file_entry_free", "pyfsapfs/pyfsapfs_extended_attribute.c: pyfsapfs_extended_attribute_free"]}
{"id": "C92", "title": "The signature checks agree with opening a container", "statement": "libfsapfs_check_container_signature answers 1 exactly if the four bytes at offset 32 of the file are NXSB, and likewise the check for volumes with APSB; a file of fewer than 36 bytes is an error. A handle that was closed is closed again, one that was open stays open. A file that opens as a container has the container signature, and the other way around; a container with a volume has the volume signature.", "quantifier": "all files and handles, open or not", "why_tests_cant": "A test has a file with the signature and one without. It does not relate the check to what opening accepts for every file.", "anchors": ["libfsapfs/libfsapfs_support.c: libfsapfs_check_container_signature", "libfsapfs/libfsapfs_support.c: libfsapfs_check_container_signature_file_io_handle", "libfsapfs/libfsapfs_support.c: libfsapfs_check_volume_signature_file_io_handle"]}
{"id": "C93", "title": "The options of a command line are the ones it says", "statement": "The function of the tools that takes the command line apart (used where the system has none) returns the options in their order, each with its argument if it takes one, joined or as the next word, and stops at the first operand or after \"--\"; an option that is unknown or lacks its argument is reported. The options string holds every option of the table or is refused for want of room.", "quantifier": "all tables of options and all command lines", "why_tests_cant": "A test tries a few command lines. It cannot cover every grouping of options, every position of an argument, and words like a dash alone.", "anchors": ["fsapfstools/fsapfstools_getopt.c: fsapfstools_getopt", "fsapfstools/fsapfstools_getopt.c: fsapfstools_getopt_get_options_string", "fsapfstools/fsapfsinfo.c: main"]}
{"id": "C94", "title": "A help text is printed completely and within the width", "statement": "A wrapped text is printed to its end, in order and without a character lost, on lines that break only at blanks and are not wider than the given width; printing ends for every width.", "quantifier": "all texts, widths and indentations", "why_tests_cant": "A test prints one text. Whether words are lost or the loop goes on for ever depends on where blanks fall in any text.", "anchors": ["fsapfstools/fsapfstools_getopt.c: fsapfstools_getopt_wrapped_fprint"]}
{"id": "C95", "title": "The options select the volumes that are shown or mounted", "statement": "The last of the options -E, -F and -H decides what fsapfsinfo shows. With -f and the number of a volume, exactly this volume is shown or mounted; without it, or with \"all\", every volume in its order; a number or text that is no volume is refused. A volume that cannot be read does not hide another one.", "quantifier": "all lists of options, all numbers of volumes, and whatever can be read of each volume", "why_tests_cant": "A test has one container with one volume and a few options. The selection depends on every combination of options with any number of volumes, some of them unreadable.", "anchors": ["fsapfstools/fsapfsinfo.c: main", "fsapfstools/info_handle.c: info_handle_set_file_system_index", "fsapfstools/info_handle.c: info_handle_file_system_hierarchy_fprint", "fsapfstools/info_handle.c: info_handle_container_fprint", "fsapfstools/mount_handle.c: mount_handle_open"]}
{"id": "C96", "title": "All file entries means every file entry once", "statement": "fsapfsinfo -E all prints every file entry of the volume exactly once, in the order of the identifiers, and then succeeds.", "quantifier": "all well-formed file system trees of any height", "why_tests_cant": "A test has one small volume. It cannot show for every tree that the loop over identifiers meets every inode and stops at none of the gaps.", "anchors": ["fsapfstools/info_handle.c: info_handle_file_entries_fprint", "libfsapfs/libfsapfs_volume.c: libfsapfs_volume_get_file_entry_by_identifier", "libfsapfs/libfsapfs_volume.c: libfsapfs_volume_get_next_file_entry_identifier"]}
{"id": "C97", "title": "Names on Windows can be used and lead back", "statement": "On Windows a mounted volume shows every name as one that Windows accepts, different names differently, and a path of shown names leads back to the path of the names themselves.", "quantifier": "all names and paths", "why_tests_cant": "Names hold any characters; a test tries a few. Whether two of them can be shown alike is a question about all pairs.", "anchors": ["fsapfstools/mount_path_string.c: mount_path_string_copy_from_file_entry_path", "fsapfstools/mount_path_string.c: mount_path_string_copy_to_file_entry_path", "fsapfstools/mount_path_string.c: mount_path_string_copy_hexadecimal_to_integer_32_bit"]}
{"id": "C98", "title": "Files on Windows are opened by their path and read only", "statement": "On Windows a listed entry is opened by the path of the listed names, with or without a separator at its end; reads give the bytes of the file at any offset and in any sequence; whatever asks for write access or for a new file is refused, and an existing file is opened when opening is all that is asked for.", "quantifier": "all volumes, paths, access rights, dispositions and sequences of reads", "why_tests_cant": "There is no test of mounting on Windows, and paths, names and sequences are unbounded.", "anchors": ["fsapfstools/mount_dokan.c: mount_dokan_ZwCreateFile", "fsapfstools/mount_dokan.c: mount_dokan_CreateFile", "fsapfstools/mount_dokan.c: mount_dokan_ReadFile", "fsapfstools/mount_handle.c: mount_handle_get_file_entry_by_path", "fsapfstools/mount_file_system.c: mount_file_system_get_file_entry_by_path", "fsapfstools/mount_file_system.c: mount_file_system_get_filename_from_file_entry"]}
{"id": "C99", "title": "Size, kind and times on Windows are the ones of the file", "statement": "The information that Windows is given about a path has the size of the file, marks directories and nothing else as directories, and has its times to 100 nanoseconds.", "quantifier": "all files, sizes and times", "why_tests_cant": "Sizes and times are 64-bit values in two halves, converted between epochs; a test has a few of them.", "anchors": ["fsapfstools/mount_dokan.c: mount_dokan_set_file_information", "fsapfstools/mount_dokan.c: mount_dokan_GetFileInformation", "fsapfstools/mount_file_entry.c: mount_file_entry_get_creation_time", "fsapfstools/mount_file_entry.c: mount_file_entry_get_modification_time"]}
{"id": "C100", "title": "A directory on Windows lists all its entries", "statement": "Listing a directory on Windows gives the directory, its parent and every entry once, in the order of the records, under the name that opens it and with the information that is given for its path; no memory outside of the structures is written.", "quantifier": "all directories, all names of up to 255 units", "why_tests_cant": "Directories have any number of entries with names of any length; the limits of the structures are met by lengths that no test has.", "anchors": ["fsapfstools/mount_dokan.c: mount_dokan_FindFiles", "fsapfstools/mount_dokan.c: mount_dokan_filldir", "fsapfstools/mount_dokan.c: mount_dokan_set_find_data", "fsapfstools/mount_file_entry.c: mount_file_entry_get_sub_file_entry_by_index"]}
{"id": "C101", "title": "Blocks that cannot be read cause errors, never another answer", "statement": "If blocks of the device cannot be read, then opening the container or a volume, looking up a file entry, listing, and reading data give what they give on the whole device, or an error: no file is reported as missing and no data is read as other data.", "quantifier": "all devices, all sets of unreadable blocks, all paths, offsets and sizes", "why_tests_cant": "A test makes one certain read fail; which reads a call does depends on the image, and every one of them can fail.", "anchors": ["libfsapfs/libfsapfs_container.c: libfsapfs_internal_container_open_read", "libfsapfs/libfsapfs_file_system_btree.c: libfsapfs_file_system_btree_get_inode_by_utf8_path", "libfsapfs/libfsapfs_object_map_btree.c: libfsapfs_object_map_btree_get_descriptor_by_object_identifier", "libfsapfs/libfsapfs_file_entry.c: libfsapfs_file_entry_read_buffer_at_offset", "fsapfstools/mount_fuse.c: mount_fuse_getattr", "fsapfstools/mount_dokan.c: mount_dokan_CreateFile"]}
{"id": "C102", "title": "Errors do not outlast the fault", "statement": "If blocks are unreadable during some calls on an open volume or file entry and readable during others, then the calls without faults give exactly the answers of the whole device, whatever failed before, and the calls with faults give these answers or an error. A failed read leaves the position where it was or where it was asked to read.", "quantifier": "all sequences of calls, all sets of unreadable blocks that change from call to call", "why_tests_cant": "The entries fill in their fields when first needed; a fault can strike at each of the steps of each of these calls, and the damage shows in a later call.", "anchors": ["libfsapfs/libfsapfs_file_entry.c: libfsapfs_internal_file_entry_get_extended_attributes", "libfsapfs/libfsapfs_file_entry.c: libfsapfs_internal_file_entry_get_data_stream", "libfsapfs/libfsapfs_file_entry.c: libfsapfs_internal_file_entry_get_data_size", "libfsapfs/libfsapfs_compressed_data_handle.c: libfsapfs_compressed_data_handle_read_segment_data", "libfsapfs/libfsapfs_volume.c: libfsapfs_internal_volume_get_file_system"]}
{"id": "C103", "title": "The size and the reach of an open container are those of its newest checkpoint", "statement": "The size that an open container reports is the number of blocks in its newest superblock times the block size, and the nodes of its trees may be in any of these blocks, in particular after the container was resized.", "quantifier": "all consistent containers, also those whose first block has a superblock of an older transaction", "why_tests_cant": "The first block is rewritten in most images that tests use, so that both superblocks have the same size; the limit only shows in nodes that were written behind the old end.", "anchors": ["libfsapfs/libfsapfs_container.c: libfsapfs_internal_container_open_read", "libfsapfs/libfsapfs_container.c: libfsapfs_container_get_size", "libfsapfs/libfsapfs_volume.c: libfsapfs_internal_volume_open_read"]}
{"id": "C104", "title": "A container object can be opened, closed and opened again", "statement": "After any sequence of opens by name or through a handle, closes, questions and failed opens, a container object answers for the file of the last open that worked, and for no file after a close. A container that is closed behaves like a new one. An open that fails changes neither the container nor the handle it was given, and closing gives a handle of the caller back open or closed as it was.", "quantifier": "all sequences of calls, all files, all handles, all access flags; also calls for which a lock cannot be grabbed", "why_tests_cant": "Tests open a file once per object, or twice in a fixed order; leftovers of a failed open only show in what a later open finds, for every place at which an open can fail.", "anchors": ["libfsapfs/libfsapfs_container.c: libfsapfs_container_open", "libfsapfs/libfsapfs_container.c: libfsapfs_container_open_file_io_handle", "libfsapfs/libfsapfs_container.c: libfsapfs_container_close", "libfsapfs/libfsapfs_container.c: libfsapfs_internal_container_open_read"]}
{"id": "C105", "title": "Signalling abort stops the current activity", "statement": "After libfsapfs_container_signal_abort a call that is running on the container, or is made next, ends with an error instead of being carried out.", "quantifier": "all sequences of calls", "why_tests_cant": "A test can check that the function returns 1; whether any of the loops of the library looks at the flag is not visible in a call that takes no time.", "anchors": ["libfsapfs/libfsapfs_container.c: libfsapfs_container_signal_abort", "libfsapfs/libfsapfs_io_handle.c: libfsapfs_io_handle_clear"]}
{"id": "C106", "title": "Whatever is on the device, every call returns", "statement": "Once a volume has been opened, every call made on it and on the file entries, directories and extended attributes reached from it returns, with an answer or with an error: no call reads or writes outside of a buffer and none runs forever. This holds whatever the blocks of the device contain, for all orders of calls and for all arguments.", "quantifier": "all devices, volumes, passwords, entries reached by lookups, sub entries, paths and parents, and all sequences of calls", "why_tests_cant": "The devices that make a parser leave its buffers are those nobody has thought of; a test runs a few damaged images through a few calls, each in one order.", "anchors": ["libfsapfs/libfsapfs_volume.c: libfsapfs_volume_unlock", "libfsapfs/libfsapfs_file_entry.c: libfsapfs_file_entry_read_buffer", "libfsapfs/libfsapfs_compressed_data_handle.c: libfsapfs_compressed_data_handle_get_compressed_block_offsets", "libfsapfs/libfsapfs_extended_attribute.c: libfsapfs_extended_attribute_read_buffer", "libfsapfs/libfsapfs_key_encrypted_key.c: libfsapfs_key_encrypted_key_read_data"]}
{"id": "C107", "title": "An extended attribute object behaves like its name, bytes and extents", "statement": "All calls on an extended attribute object, in any number and order, give what the attribute is: its name in UTF-8 and UTF-16, its size, its bytes from wherever they are read with a position that reads and seeks move, its extents, and an identifier that tells it from other attributes.", "quantifier": "all attributes of all files on a volume, and all sequences of calls", "why_tests_cant": "Attributes are kept with the file or in extents of their own, and the data stream is made by whichever call comes first; a test takes one attribute and one order.", "anchors": ["libfsapfs/libfsapfs_extended_attribute.c: libfsapfs_extended_attribute_seek_offset", "libfsapfs/libfsapfs_extended_attribute.c: libfsapfs_extended_attribute_get_offset", "libfsapfs/libfsapfs_extended_attribute.c: libfsapfs_extended_attribute_get_identifier", "libfsapfs/libfsapfs_attributes.c: libfsapfs_attributes_get_data_stream"]}
{"id": "C108", "title": "The text about a container and its volumes says what is on the medium", "statement": "What fsapfsinfo prints about a container has one line for every item: the identifier, the number of volumes and, for each volume in order, its identifier, name, the three sets of feature flags with the names of the flags that are set, whether it is locked, and the name of every snapshot. Every line gives the value that the superblocks say, the text can be read in one way only, and a volume that cannot be had is an error and not a gap in the list.", "quantifier": "all containers, all volumes and snapshots, all names and flags", "why_tests_cant": "The printed text goes through seven conversions with fixed buffers; the tests of the tool only look at the exit status, and a golden file fixes one container.", "anchors": ["fsapfstools/info_handle.c: info_handle_container_fprint", "fsapfstools/info_handle.c: info_handle_volume_fprint", "fsapfstools/info_handle.c: info_handle_volume_compatible_features_flags_fprint", "fsapfstools/info_handle.c: info_handle_volume_incompatible_features_flags_fprint"]}
{"id": "C109", "title": "The text about a file entry says what the file is", "statement": "What fsapfsinfo prints for -E or -F has one line for every item: identifier, name, size, times, added time, number of links, owner, group, mode in letters and in octal, device number, target of a symbolic link and names of the extended attributes; each with the value of the inode, the directory entry and the attributes. Every object that has an inode is shown.", "quantifier": "all inodes, entries, attributes and data of all volumes", "why_tests_cant": "Each item is optional or depends on the type of the file; a test takes a few files and compares by eye.", "anchors": ["fsapfstools/info_handle.c: info_handle_file_entry_value_with_name_fprint", "fsapfstools/info_handle.c: info_handle_file_entry_value_fprint", "fsapfstools/info_handle.c: info_handle_file_entry_fprint_by_identifier", "fsapfstools/info_handle.c: info_handle_file_entry_fprint_by_path"]}
{"id": "C110", "title": "The path that is shown selects the same entry again", "statement": "The path in the text for -F, given to -F again, selects the entry that the text is about.", "quantifier": "all paths and volumes", "why_tests_cant": "Only characters that have to be escaped tell the difference; tests use letters.", "anchors": ["fsapfstools/info_handle.c: info_handle_file_entry_fprint_by_path", "fsapfstools/info_handle.c: info_handle_name_value_fprint"]}
{"id": "C111", "title": "Debug output does not change results", "statement": "Opening a container, opening a volume and reading a file give the same results, errors included, whether the library was built with debug output or not and whether verbose output is switched on or not.", "quantifier": "all devices, containers, volumes and compressed files", "why_tests_cant": "Tests run one build in one mode; the objects that only the debug code reads are intact in the images of a test suite, so that both modes agree there.", "anchors": ["libfsapfs/libfsapfs_container.c: libfsapfs_internal_container_open_read", "libfsapfs/libfsapfs_volume.c: libfsapfs_internal_volume_open_read", "libfsapfs/libfsapfs_compressed_data_handle.c: libfsapfs_compressed_data_handle_get_compressed_block_offsets", "libfsapfs/libfsapfs_space_manager.c: libfsapfs_space_manager_read_data", "libfsapfs/libfsapfs_container_reaper.c: libfsapfs_container_reaper_read_data"]}
{"id": "C112", "title": "A volume in Python gives the entries of the file system or None", "statement": "For a volume object of pyfsapfs, get_file_entry_by_identifier, get_file_entry_by_path and get_root_directory give the entry that the file system has, None if it has none, and raise an exception for an argument that can be no identifier or path. set_password, set_recovery_password, unlock and is_locked tell and change the state as the library does; a call that raises changes nothing.", "quantifier": "all volumes, passwords, Python integers and strings as arguments, and all sequences of calls", "why_tests_cant": "The tests of the bindings ask for one entry that exists; the answer for entries that do not and for integers out of range depends on the conversion of arguments and on the order in which results are compared.", "anchors": ["pyfsapfs/pyfsapfs_volume.c: pyfsapfs_volume_get_file_entry_by_identifier", "pyfsapfs/pyfsapfs_volume.c: pyfsapfs_volume_get_file_entry_by_path", "pyfsapfs/pyfsapfs_volume.c: pyfsapfs_volume_set_password", "pyfsapfs/pyfsapfs_volume.c: pyfsapfs_volume_unlock", "pyfsapfs/pyfsapfs_volume.c: pyfsapfs_volume_is_locked"]}
{"id": "C113", "title": "Names, link targets and attributes in Python are those of the file system", "statement": "In pyfsapfs the name of a file entry, the target of a symbolic link and the name of an extended attribute are the strings that the file system has; what has a name is found by it and nothing else is; and an extended attribute is a file object of its value: read_buffer, read_buffer_at_offset, seek_offset, get_offset and get_size behave like those of a file with these bytes.", "quantifier": "all volumes, entries, names (strings of characters), attributes, and all sequences of calls", "why_tests_cant": "Names go through two conversions with a size pass and a copy pass; a test uses a few names in one script, and a file object in one order of calls.", "anchors": ["pyfsapfs/pyfsapfs_file_entry.c: pyfsapfs_file_entry_get_name", "pyfsapfs/pyfsapfs_file_entry.c: pyfsapfs_file_entry_get_symbolic_link_target", "pyfsapfs/pyfsapfs_file_entry.c: pyfsapfs_file_entry_get_extended_attribute_by_name", "pyfsapfs/pyfsapfs_file_entry.c: pyfsapfs_file_entry_get_sub_file_entry_by_name", "pyfsapfs/pyfsapfs_extended_attribute.c: pyfsapfs_extended_attribute_read_buffer", "pyfsapfs/pyfsapfs_extended_attribute.c: pyfsapfs_extended_attribute_seek_offset"]}
{"id": "C114", "title": "Windows is told the truth about a mounted volume", "statement": "GetVolumeInformation of a volume that fsapfsmount mounted with Dokan gives the names of the volume and of the file system in every buffer that is large enough for the name and its end, writes to no buffer behind its size, and its flags and longest name are true of the volume: it is read-only, a search tells letters apart by their case only if the volume does, and no name is longer than said.", "quantifier": "all buffers and sizes, missing buffers, all volumes and names", "why_tests_cant": "Needs Windows and Dokan; a test would look at one size of the buffer and at a volume with plain names.", "anchors": ["fsapfstools/mount_dokan.c: mount_dokan_GetVolumeInformation"]}
{"id": "C115", "title": "Memory is given back", "statement": "A program that opens file entries, extended attributes and snapshots of a volume, makes any calls on them and frees all of them has in the end no more memory allocated than before, whether the calls succeed or fail; no call frees what is not allocated.", "quantifier": "all volumes, all sequences of calls with all arguments and results", "why_tests_cant": "Leaks are on rare paths (an empty component of a path, a short attribute) or in every run but without effect on any result; a test sees results only.", "anchors": ["libfsapfs/libfsapfs_file_system_btree.c: libfsapfs_file_system_btree_get_inode_by_utf8_path", "libfsapfs/libfsapfs_file_entry.c: libfsapfs_internal_file_entry_get_data_size", "libfsapfs/libfsapfs_file_entry.c: libfsapfs_internal_file_entry_get_data_stream", "libfsapfs/libfsapfs_snapshot.c: libfsapfs_snapshot_free", "libfsapfs/libfsapfs_compressed_data_handle.c: libfsapfs_compressed_data_handle_free"]}
{"id": "C116", "title": "Passwords and keys do not stay behind in memory", "statement": "After calls that set passwords and try to unlock a volume, and after the volume was freed, memory that the library has given back (freed buffers, arrays of functions that have returned) has no part of a password, of the key derived from a password, of the volume key or of the volume master key.", "quantifier": "all key bags, all sequences of setting passwords and unlocking, right and wrong passwords, all results, all earlier contents of the memory", "why_tests_cant": "What is left in dead memory has no effect on any result; no test reads it.", "anchors": ["libfsapfs/libfsapfs_volume.c: libfsapfs_internal_volume_unlock", "libfsapfs/libfsapfs_volume.c: libfsapfs_internal_volume_close", "libfsapfs/libfsapfs_volume.c: libfsapfs_volume_set_utf8_password", "libfsapfs/libfsapfs_key_encrypted_key.c: libfsapfs_key_encrypted_key_unlock_with_password", "libfsapfs/libfsapfs_key_encrypted_key.c: libfsapfs_key_encrypted_key_unlock_with_key", "libfsapfs/libfsapfs_encryption_context.c: libfsapfs_encryption_aes_key_unwrap", "libfsapfs/libfsapfs_password.c: libfsapfs_password_pbkdf2"]}
{"id": "C117", "title": "The passwords of a command line decide which volume is read", "statement": "fsapfsmount mounts the volume that was chosen exactly if it is not encrypted or if the password of -p or of -r opens it, and then reads with the keys of that volume; otherwise it ends with an error. fsapfsinfo uses the same keys and leaves the volume locked if no password opens it. Of an option that is given several times the last one counts; a password that does not open anything does not prevent the other one from doing so.", "quantifier": "all containers, all key bags, all command lines, all passwords, all earlier contents of the memory", "why_tests_cant": "There are endlessly many combinations of key records, options and passwords; the tests do not run the tools on encrypted volumes with several records, repeated options or without a readable key bag.", "anchors": ["fsapfstools/fsapfsmount.c: main", "fsapfstools/mount_handle.c: mount_handle_open", "fsapfstools/mount_handle.c: mount_handle_get_volume_by_index", "fsapfstools/mount_handle.c: mount_handle_set_password", "fsapfstools/info_handle.c: info_handle_set_password", "fsapfstools/info_handle.c: info_handle_get_volume_by_index", "fsapfstools/info_handle.c: info_handle_container_fprint"]}
{"id": "C118", "title": "Reading through a Python file object leaves no references behind", "statement": "When a container is opened with a Python file object, read, closed and deallocated, in any order and as often as the program likes, pyfsapfs gives every reference to a Python object back exactly once: it has none left in the end, it never gives back one that it does not have, and it never uses an object without a reference. The same holds for the signature check and for the module functions that open a container, except for their result.", "quantifier": "all Python interpreters and file objects (every call of the interpreter may fail and raise), all sequences of calls of a program, all sequences of reads, seeks and size requests of the library", "why_tests_cant": "References left behind are not visible in results; they show after many calls, or for objects with finalizers, and most paths need an interpreter function or a method of the file object that fails.", "anchors": ["pyfsapfs/pyfsapfs_file_object_io_handle.c: pyfsapfs_file_object_read_buffer", "pyfsapfs/pyfsapfs_file_object_io_handle.c: pyfsapfs_file_object_seek_offset", "pyfsapfs/pyfsapfs_file_object_io_handle.c: pyfsapfs_file_object_get_offset", "pyfsapfs/pyfsapfs_file_object_io_handle.c: pyfsapfs_file_object_io_handle_get_size", "pyfsapfs/pyfsapfs_error.c: pyfsapfs_error_fetch", "pyfsapfs/pyfsapfs_error.c: pyfsapfs_error_fetch_and_raise", "pyfsapfs/pyfsapfs_integer.c: pyfsapfs_integer_signed_copy_to_64bit", "pyfsapfs/pyfsapfs_container.c: pyfsapfs_container_open", "pyfsapfs/pyfsapfs_container.c: pyfsapfs_container_open_file_object", "pyfsapfs/pyfsapfs_container.c: pyfsapfs_container_free", "pyfsapfs/pyfsapfs.c: pyfsapfs_check_container_signature_file_object", "pyfsapfs/pyfsapfs.c: pyfsapfs_open_new_container_with_file_object"]}
{"id": "C119", "title": "The interpreter is used only with the interpreter lock", "statement": "While a container is opened, read through a Python file object, closed and deallocated, every call of the Python interpreter is made while the interpreter lock is held, although the library runs without it; and every function returns with the lock held as often as before.", "quantifier": "all Python interpreters and file objects, all sequences of calls of a program, all sequences of reads, seeks and size requests of the library", "why_tests_cant": "Use without the lock shows only as a race with other threads, and a lock that is not released only as a deadlock later; the error paths need a file object that fails at a certain call.", "anchors": ["pyfsapfs/pyfsapfs_file_object_io_handle.c: pyfsapfs_file_object_io_handle_read", "pyfsapfs/pyfsapfs_file_object_io_handle.c: pyfsapfs_file_object_io_handle_seek_offset", "pyfsapfs/pyfsapfs_file_object_io_handle.c: pyfsapfs_file_object_io_handle_get_size", "pyfsapfs/pyfsapfs_file_object_io_handle.c: pyfsapfs_file_object_io_handle_free", "pyfsapfs/pyfsapfs_container.c: pyfsapfs_container_open_file_object", "pyfsapfs/pyfsapfs_container.c: pyfsapfs_container_close", "pyfsapfs/pyfsapfs.c: pyfsapfs_check_container_signature_file_object"]}
{"id": "C120", "title": "Python methods that make their results leave nothing but the result", "statement": "The methods of pyfsapfs that read data (from the current offset or at an offset), return extents, and return names and symbolic link targets use and give back only objects that they have been given or have made: afterwards there is exactly one more reference, that to the result, or, if they return no result, none, and an exception is raised. They never follow a pointer to an object that could not be made.", "quantifier": "all Python interpreters (every call of the interpreter may fail and raise), all arguments and sizes, all results of the library and everything that it reads through a file object", "why_tests_cant": "The paths after a failed allocation of the interpreter are not reached in tests, and references left behind or given back twice are not visible in results.", "anchors": ["pyfsapfs/pyfsapfs_file_entry.c: pyfsapfs_file_entry_read_buffer", "pyfsapfs/pyfsapfs_file_entry.c: pyfsapfs_file_entry_read_buffer_at_offset", "pyfsapfs/pyfsapfs_file_entry.c: pyfsapfs_file_entry_get_extent_by_index", "pyfsapfs/pyfsapfs_file_entry.c: pyfsapfs_file_entry_get_name", "pyfsapfs/pyfsapfs_extended_attribute.c: pyfsapfs_extended_attribute_read_buffer", "pyfsapfs/pyfsapfs_extended_attribute.c: pyfsapfs_extended_attribute_get_extent_by_index", "pyfsapfs/pyfsapfs_extended_attribute.c: pyfsapfs_extended_attribute_get_name", "pyfsapfs/pyfsapfs_volume.c: pyfsapfs_volume_get_name"]}
