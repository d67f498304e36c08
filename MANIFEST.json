{
 "claims": [
  {
   "property": "C01",
   "status": "proved",
   "theorems": [
    "C01_fletcher64_is_apfs_checksum",
    "C01_misaligned_rejected"
   ],
   "note": "64-bit accumulators with explicit wrap; bound 92680 words is the overflow bound"
  },
  {
   "property": "C02",
   "status": "partial",
   "theorems": [
    "C02_single_word_corruption_detected_refuted",
    "C02_single_word_corruption_detected_partial"
   ],
   "note": "the full statement is false (0x00000000 vs 0xffffffff word); all other single-word changes are detected"
  },
  {
   "property": "C03",
   "status": "proved",
   "theorems": [
    "C03_crc32c_is_bitwise_castagnoli",
    "C03_crc32c_incremental"
   ],
   "note": ""
  },
  {
   "property": "C04",
   "status": "proved",
   "theorems": [
    "C04_adler32_is_rfc1950"
   ],
   "note": ""
  },
  {
   "property": "C05",
   "status": "partial",
   "theorems": [
    "C05_bit_reader_delivers_stream_bits_refuted",
    "C05_bit_reader_delivers_stream_bits_partial",
    "C05_bit_reader_stays_in_bounds"
   ],
   "note": "the full statement is false for reads of more than 25 bits at an unaligned position; proved for all other histories; bounds proved for all widths"
  },
  {
   "property": "C06",
   "status": "proved",
   "theorems": [
    "C06_huffman_decodes_canonical_code",
    "C06_oversubscribed_rejected",
    "C06_huffman_decoding_sound"
   ],
   "note": ""
  },
  {
   "property": "C07",
   "status": "proved",
   "theorems": [
    "C07_inflate_reproduces_data",
    "C07_zlib_reproduces_data",
    "C07_inflate_returns_nothing_else"
   ],
   "note": "dynamic blocks with an empty distance code are excluded, see C10"
  },
  {
   "property": "C08",
   "status": "proved",
   "theorems": [
    "C08_inflate_safe",
    "C08_zlib_safe"
   ],
   "note": ""
  },
  {
   "property": "C09",
   "status": "partial",
   "theorems": [
    "C09_truncated_zlib_reported_refuted",
    "C09_damaged_zlib_reported_partial"
   ],
   "note": "the full statement is false: a stream cut off after a non-final block, or before its checksum, is accepted"
  },
  {
   "property": "C10",
   "status": "partial",
   "theorems": [
    "C10_rfc1951_stream_accepted_refuted",
    "C10_rfc1951_stream_accepted_partial"
   ],
   "note": "the full statement is false: a dynamic block without distance codes is rejected; proved for all other streams"
  },
  {
   "property": "C100",
   "status": "partial",
   "theorems": [
    "C100_windows_listing_partial",
    "C100_windows_listed_partial",
    "C100_windows_listing_refuted"
   ],
   "note": "Proved for names of at most 25 units. False beyond: one name of 26 letters makes the listing of its directory fail, and with long paths memory behind the name is written."
  },
  {
   "property": "C101",
   "status": "partial",
   "theorems": [
    "C101_fetch",
    "C101_opening",
    "C101_lookups",
    "C101_mounted_refuted"
   ],
   "note": "Proved for the library: opening, lookups, listings, attributes, extents and data, for every device and every set of unreadable blocks. False for a mounted volume: a file whose record cannot be read is reported as missing."
  },
  {
   "property": "C102",
   "status": "partial",
   "theorems": [
    "C102_file_partial",
    "C102_exact",
    "C102_lookups_partial"
   ],
   "note": "Proved for file entries as in C66 and volumes as in C71, for every sequence of calls and every set of unreadable blocks per call. Missing: the files and volumes outside of C66 and C71 (their conditions), and the cache of object map nodes, whose nodes count as readable."
  },
  {
   "property": "C103",
   "status": "partial",
   "theorems": [
    "C103_size_of_block_0",
    "C103_same_size_partial",
    "C103_old_size_refuted",
    "C103_grown_container_refuted"
   ],
   "note": "Proved when the superblock in block 0 has the size of the newest one. False otherwise: the size is the one in block 0, and after growing no volume can be opened whose object map is behind the old end."
  },
  {
   "property": "C104",
   "status": "partial",
   "theorems": [
    "C104_answers",
    "C104_opens",
    "C104_as_new",
    "C104_failed_open",
    "C104_gives_back",
    "C104_lock_fails_refuted",
    "C104_freed_handle_refuted"
   ],
   "note": "Proved for all sequences of calls whose locks can be grabbed, and handles that can be closed. False otherwise: if the first lock of an open cannot be grabbed the object is stuck half open, if the second one cannot it is left open with a freed handle."
  },
  {
   "property": "C105",
   "status": "partial",
   "theorems": [
    "C105_no_effect",
    "C105_stops_refuted"
   ],
   "note": "False: nothing reads the flag. Proved instead: in every sequence of calls the answers are those without the signals."
  },
  {
   "property": "C106",
   "status": "partial",
   "theorems": [
    "C106_volume_calls_partial",
    "C106_entry_calls_partial",
    "C106_volume_calls_refuted",
    "C106_entry_calls_refuted"
   ],
   "note": "Proved for all devices on which no packed key claims to be larger than it is and no table of compressed data has more entries than its buffer. False without these conditions: unlocking reads after the end of such a key (as in C41), and reading a file with such a table writes after the end of the buffer (as in C13)."
  },
  {
   "property": "C107",
   "status": "partial",
   "theorems": [
    "C107_attribute_object_partial",
    "C107_identifier_refuted",
    "C107_attribute_object_refuted"
   ],
   "note": "Proved for attributes of regular files in any sequence of calls, with identifiers that are all 0. False: the identifier is never set, and for an attribute with neither flag seeking succeeds without effect and get_offset succeeds without setting the offset."
  },
  {
   "property": "C108",
   "status": "partial",
   "theorems": [
    "C108_volume_text_partial",
    "C108_container_text_partial",
    "C108_volume_text_determines",
    "C108_no_volume_left_out",
    "C108_volume_text_refuted"
   ],
   "note": "Proved for volumes and snapshots whose names have no end of line and do not start with a byte order mark. False without: names are printed as they are, and two volumes that differ in their names and snapshots have the same text."
  },
  {
   "property": "C109",
   "status": "partial",
   "theorems": [
    "C109_text_by_identifier_partial",
    "C109_text_by_path_partial",
    "C109_device_refuted",
    "C109_attribute_names_refuted",
    "C109_unnamed_refuted"
   ],
   "note": "Proved for named inodes, attribute names and link targets without an end of line, and device numbers with a minor below 256. False without: a minor of 256 or more is printed as another device, one attribute with an end of line in its name is printed as two, and an inode without a name field is an error for -E though a path leads to it."
  },
  {
   "property": "C11",
   "status": "partial",
   "theorems": [
    "C11_compressed_read_slice_refuted",
    "C11_deflate_fork_read_slice_partial",
    "C11_lzvn_fork_read_slice_partial",
    "C11_inline_read_slice_partial"
   ],
   "note": "The full statement is false: a well-formed DEFLATE fork of 8160 or more blocks overflows the table buffer. Proved for all histories of reads of forks of up to 8159 (DEFLATE) or 16383 (LZVN) blocks and of data in the attribute."
  },
  {
   "property": "C110",
   "status": "partial",
   "theorems": [
    "C110_shown_path_opens_partial",
    "C110_shown_path_refuted"
   ],
   "note": "Proved for paths of characters that are written as they are. False with escapes: the escaped option is escaped again."
  },
  {
   "property": "C111",
   "status": "partial",
   "theorems": [
    "C111_container_any",
    "C111_container_partial",
    "C111_container_refuted",
    "C111_volume_partial",
    "C111_volume_refuted",
    "C111_compressed_partial",
    "C111_compressed_refuted"
   ],
   "note": "For all devices debug output gives the same result or an error, never another result and never a read outside of a buffer. Proved to be the same exactly if the space manager, the reaper and the Fusion middle tree (containers, for consistent ones), the extent reference tree (volumes) and the footer (forks with DEFLATE data) are where they are said to be. False without: each of them, damaged, makes an error out of something that opens or reads without debug output. For files the table of blocks is compared, which reading goes by. The printing functions are taken not to fail."
  },
  {
   "property": "C112",
   "status": "partial",
   "theorems": [
    "C112_lookup_partial",
    "C112_state_partial",
    "C112_missing_refuted",
    "C112_no_identifier_refuted",
    "C112_password_refuted"
   ],
   "note": "Proved in any sequence of calls for the root directory and all paths (as looked up by the library), and for identifiers in 64 bits: exactly the entries that are there are given, and anything else raises. False otherwise: an identifier without an entry raises instead of giving None (the error is tested before the missing entry), an integer out of 64 bits gives the entry of its remainder, and set_password with an empty string raises and drops the earlier password."
  },
  {
   "property": "C113",
   "status": "partial",
   "theorems": [
    "C113_attribute_partial",
    "C113_attribute_by_name_partial",
    "C113_entry_name_partial",
    "C113_link_partial",
    "C113_attribute_refuted",
    "C113_entry_name_refuted",
    "C113_only_texts"
   ],
   "note": "Proved for attributes of regular files in any sequence of calls and for names and targets without a leading byte order mark. False otherwise: an attribute with neither flag accepts a seek and stays where it is; two names that differ in a byte order mark are the same string; a name of one character finds the directory itself."
  },
  {
   "property": "C114",
   "status": "partial",
   "theorems": [
    "C114_volume_information_partial",
    "C114_flags",
    "C114_name_refuted",
    "C114_case_refuted",
    "C114_longest_refuted"
   ],
   "note": "Proved: for all buffers and sizes nothing is written behind the size, a name is given unless the buffer has exactly the size of the name with its end, and the volume is said to be read-only, with names in Unicode that keep their case, and nothing else. False: a buffer of exactly that size gets no name, volumes that ignore case are said to be case sensitive, and an escaped name can have more units than the longest name that is reported."
  },
  {
   "property": "C115",
   "status": "partial",
   "theorems": [
    "C115_given_back_partial",
    "C115_all_freed",
    "C115_same_answers",
    "C115_same_entries",
    "C115_same_sub",
    "C115_empty_component_refuted",
    "C115_short_header_refuted",
    "C115_compressed_refuted",
    "C115_snapshot_refuted"
   ],
   "note": "Proved for all volumes and all sequences of calls: nothing is freed twice or without being allocated, and what stays allocated is owned by the objects that are left, or is a directory record lost by a path with an empty component, a data stream lost by a compressed file, or the superblock of a snapshot. On a volume without compressed files, programs that use neither snapshots nor such paths get everything back. The accounting changes no answer. False in general: these four losses happen. Allocations that fail are not modelled."
  },
  {
   "property": "C116",
   "status": "partial",
   "theorems": [
    "C116_cleared_partial",
    "C116_passwords_freed",
    "C116_same_answers",
    "C116_key_left",
    "C116_password_key_left",
    "C116_secrets_refuted"
   ],
   "note": "Proved for all key bags, calls, results and earlier contents: the arrays that are meant for passwords and keys (the passwords, the key of a password, unwrapped keys, volume key, volume master key, digest) are cleared when they are given back, or were not written; every password that was set is given back, and the answers are those of C42 to C45. False in general: whenever a volume is unlocked, the first 8 bytes of the key that decrypts its files stay in block_data of the key unwrapping, and with a record of one iteration every attempt leaves the whole key derived from the password in hash_buffer of PBKDF2. What libcaes, libhmac and the compiler do is not modelled."
  },
  {
   "property": "C117",
   "status": "partial",
   "theorems": [
    "C117_mount_partial",
    "C117_plain",
    "C117_mounted_unlocked",
    "C117_info_partial",
    "C117_hardware_refuted",
    "C117_empty_password_refuted"
   ],
   "note": "Proved for key bags whose records for the volume are of a supported kind (C42: others cause an error) and passwords that are not empty: fsapfsmount mounts an encrypted volume if and only if one of the last given passwords opens a record, with the keys of the volume; fsapfsinfo has the same keys, or leaves the volume locked. For all key bags and command lines: what is mounted is the volume that was asked for, it is not locked, and with a key bag it has keys. False in general: a volume that is locked because the container key bag cannot be read (hardware encryption) is mounted without password and without keys, and fsapfsinfo does the same except when it shows the container; an empty password is an error although the other password is right."
  },
  {
   "property": "C118",
   "status": "partial",
   "theorems": [
    "C118_references_partial",
    "C118_no_exceptions",
    "C118_check_partial",
    "C118_open_partial",
    "C118_named_partial",
    "C118_exceptions_refuted",
    "C118_none_refuted",
    "C118_init_refuted",
    "C118_message_refuted"
   ],
   "note": "Proved for every interpreter and every sequence of calls: no reference is given back twice or used after it was given back, and what is left in the end is exactly the exceptions that were fetched (type, value and traceback), and references to None; without exceptions only the latter. The same for the signature check (no reference to None), for opening with a file object and, if no exception is fetched, for opening by name. False in general: pyfsapfs_error_fetch never gives back the exception, so each failing read keeps the traceback with its frames forever; the functions that open a new container and the end of an open container keep a reference to None each; pyfsapfs_error_fetch_and_raise keeps the string of its message; a second __init__ of an open container forgets its file object."
  },
  {
   "property": "C119",
   "status": "proved",
   "theorems": [
    "C119_lock",
    "C119_lock_check",
    "C119_lock_open",
    "C119_lock_named",
    "C119_handle"
   ],
   "note": "For the functions of pyfsapfs around file objects and containers (PyRefs.v); pyfsapfs_file_object_io_handle_clone, which takes a reference without taking the lock, is called by nothing in the library and is not modelled."
  },
  {
   "property": "C12",
   "status": "partial",
   "theorems": [
    "C12_failed_read_no_corruption_refuted",
    "C12_failed_read_no_corruption_partial"
   ],
   "note": "The full statement is false: after a failed load the cached block keeps its index but not its data. Proved for histories in which no read after a failure starts in the block delivered last."
  },
  {
   "property": "C120",
   "status": "partial",
   "theorems": [
    "C120_read_partial",
    "C120_read_at_partial",
    "C120_extent_partial",
    "C120_name",
    "C120_lock",
    "C120_raised",
    "C120_results",
    "C120_results_at",
    "C120_made",
    "C120_memory_refuted",
    "C120_tuple_refuted"
   ],
   "note": "Proved for names with every interpreter, and for reads and extents with every interpreter that has memory for the strings and tuples and whose classes raise nothing when they are asked for: nothing is used or given back that is not held, and afterwards there is the result besides (and the exceptions of C118 that were fetched meanwhile); when there is no result an exception is pending; the interpreter lock is held when the interpreter is used; and for which sizes and results of the library there is a result, and that it is a string of the size, a tuple of three, a text or None. False in general: the results of PyBytes_FromStringAndSize, for sizes up to 2 GiB that the program chooses or the file entry has, and of PyTuple_New are not checked, so without memory NULL is followed and the process crashes instead of raising MemoryError."
  },
  {
   "property": "C13",
   "status": "partial",
   "theorems": [
    "C13_block_table_safe_refuted",
    "C13_block_table_safe_partial",
    "C13_block_sizes_partial",
    "C13_reads_safe_partial"
   ],
   "note": "The full statement is false: a DEFLATE table of 8160 or more blocks is written past its buffer. Proved for every other stream, including that accepted blocks fit and that reads are safe."
  },
  {
   "property": "C14",
   "status": "proved",
   "theorems": [
    "C14_node_parse_safe",
    "C14_number_of_entries"
   ],
   "note": ""
  },
  {
   "property": "C15",
   "status": "partial",
   "theorems": [
    "C15_node_round_trip_refuted",
    "C15_node_round_trip_partial"
   ],
   "note": "The full statement is false: the room of a root footer is taken off in every node, so a full node that is not the root is rejected. Proved for every root node with a byte of free space or values, and every other node with more than 40 such bytes."
  },
  {
   "property": "C16",
   "status": "partial",
   "theorems": [
    "C16_omap_lookup_refuted",
    "C16_omap_lookup_partial",
    "C16_newest_unique"
   ],
   "note": "The full statement is false: a lookup of identifier 0 is an error instead of not-found. Proved for every other identifier on all trees of up to 257 levels in blocks below 2^31."
  },
  {
   "property": "C17",
   "status": "partial",
   "theorems": [
    "C17_inode_by_identifier_partial",
    "C17_inode_by_identifier_refuted"
   ],
   "note": "False for identifiers of more than 60 bits, which are taken for another identifier (witness 2^60+16). Proved for all well-formed trees of any height up to 256 and all 60-bit identifiers."
  },
  {
   "property": "C18",
   "status": "partial",
   "theorems": [
    "C18_directory_enumeration_partial",
    "C18_no_other",
    "C18_directory_enumeration_refuted"
   ],
   "note": "False as stated: in a tree with branch nodes an identifier below all keys gives an error instead of an empty list. Proved complete, exact and in key order for all well-formed trees whenever some key is not after those of the directory."
  },
  {
   "property": "C19",
   "status": "partial",
   "theorems": [
    "C19_attribute_enumeration_partial",
    "C19_attributes_of_existing_file",
    "C19_attribute_enumeration_refuted"
   ],
   "note": "False for identifiers below all keys of a tree with branch nodes (error). Proved for every file whose inode record exists, including the empty list for a file without attributes."
  },
  {
   "property": "C20",
   "status": "partial",
   "theorems": [
    "C20_extent_enumeration_partial",
    "C20_extent_enumeration_refuted"
   ],
   "note": "False for identifiers below all keys of a tree with branch nodes (error). Otherwise proved complete, exact and in logical order."
  },
  {
   "property": "C21",
   "status": "proved",
   "theorems": [
    "C21_omap_lookup_terminates",
    "C21_fs_traversals_terminate",
    "C21_lookups_terminate",
    "C21_snapshot_traversal_terminates"
   ],
   "note": "Object map lookups, inode lookups, the three enumerations, the lookups by name and path in both encodings and the snapshot enumeration, on every image."
  },
  {
   "property": "C22",
   "status": "partial",
   "theorems": [
    "C22_name_lookup_partial",
    "C22_found_has_name",
    "C22_name_lookup_utf16",
    "C22_case_insensitive_lookup_refuted",
    "C22_zero_hash_lookup_refuted"
   ],
   "note": "False as stated: branch nodes are searched with the case of the string, so on a case-insensitive volume \"A.txt\" may not be found although \"a.txt\" exists; names whose hash is 0 may not be found either. Proved for all well-formed trees when no hash is 0 and the matching names have the case of the string (always so on case-sensitive volumes). For every image, a record that is returned has the name."
  },
  {
   "property": "C23",
   "status": "partial",
   "theorems": [
    "C23_path_components_partial",
    "C23_empty_path",
    "C23_missing_component",
    "C23_one_character_path_refuted"
   ],
   "note": "False for paths of a single unit other than the separator, which give the directory itself. Proved for all other paths without NUL characters, on every image, in both encodings."
  },
  {
   "property": "C24",
   "status": "partial",
   "theorems": [
    "C24_missing_name_partial",
    "C24_never_succeeds",
    "C24_lookup_by_name_refuted"
   ],
   "note": "The full statement is false: the function fails whenever the record and the inode exist (inverted check), so it never succeeds. Proved that missing names give not-found."
  },
  {
   "property": "C25",
   "status": "proved",
   "theorems": [
    "C25_reflexive",
    "C25_antisymmetric",
    "C25_transitive",
    "C25_order_of_names"
   ],
   "note": "The laws hold for arbitrary byte strings whenever the comparisons give a result; for well-formed names they always do, and the order is given explicitly."
  },
  {
   "property": "C26",
   "status": "partial",
   "theorems": [
    "C26_canonical_equivalence_refuted",
    "C26_hash_refuted",
    "C26_same_decompositions_equal_partial",
    "C26_decomposed_hash_partial"
   ],
   "note": "The full statement is false: names are compared character by character, so a precomposed letter differs from the letter with the mark; Hangul syllables other than the first and last are not decomposed for the hash. Proved for names with equal decompositions character by character (comparison) and for equal decompositions by the tables (hash)."
  },
  {
   "property": "C27",
   "status": "proved",
   "theorems": [
    "C27_hash_utf16",
    "C27_compare_utf16"
   ],
   "note": "hash and comparison; how paths in the two encodings are split is C23"
  },
  {
   "property": "C28",
   "status": "proved",
   "theorems": [
    "C28_equal_names_equal_hashes",
    "C28_equal_names_equal_hashes_utf16",
    "C28_hash_value"
   ],
   "note": "for arbitrary byte strings, both case modes"
  },
  {
   "property": "C29",
   "status": "proved",
   "theorems": [
    "C29_record_parsers_safe"
   ],
   "note": ""
  },
  {
   "property": "C30",
   "status": "proved",
   "theorems": [
    "C30_directory_key_round_trip"
   ],
   "note": ""
  },
  {
   "property": "C31",
   "status": "partial",
   "theorems": [
    "C31_inode_times_refuted",
    "C31_inode_fields_refuted",
    "C31_inode_round_trip_partial",
    "C31_extent_round_trip_partial"
   ],
   "note": "The full statement is false: creation and modification time are swapped with respect to the documented layout, and an inode with an extended field of type 16 is rejected. Proved for all other values, for every record with known extended field types."
  },
  {
   "property": "C32",
   "status": "proved",
   "theorems": [
    "C32_device_number"
   ],
   "note": ""
  },
  {
   "property": "C33",
   "status": "partial",
   "theorems": [
    "C33_read_window_partial",
    "C33_read_from_tree_partial",
    "C33_unrecorded_hole_refuted",
    "C33_trailing_hole_refuted"
   ],
   "note": "False for holes without an extent record. Proved for extents that cover the file, holes included, for files of less than 2^43 bytes."
  },
  {
   "property": "C34",
   "status": "partial",
   "theorems": [
    "C34_split_reads_partial",
    "C34_split_buffer",
    "C34_read_bounded",
    "C34_broken_block_refuted"
   ],
   "note": "False when the extents end inside a block before the end of the file. Proved for all other extents; the bound on the number of bytes always."
  },
  {
   "property": "C35",
   "status": "partial",
   "theorems": [
    "C35_encrypted_read_partial",
    "C35_sector_numbers_partial",
    "C35_large_identifier_refuted"
   ],
   "note": "False for encryption identifiers of 2^52 and more, whose sector numbers are cut. Proved below that, for every cipher."
  },
  {
   "property": "C36",
   "status": "partial",
   "theorems": [
    "C36_decrypt_encrypted_partial",
    "C36_decrypt_aes_xts_partial",
    "C36_sector_by_sector",
    "C36_within_buffers_partial",
    "C36_within_buffers_refuted"
   ],
   "note": "False for sizes that are not a multiple of the sector size, which are accepted and read and written beyond the buffers. Proved for all multiples, every length-preserving cipher, AES-XTS in particular. The callers in the library pass block sizes that are multiples."
  },
  {
   "property": "C37",
   "status": "proved",
   "theorems": [
    "C37_unwrap_wrapped",
    "C37_unwrap_wrapped_aes",
    "C37_unwrap_safe"
   ],
   "note": "For every block cipher, AES in particular; checked against RFC 3394 vectors with AES."
  },
  {
   "property": "C38",
   "status": "proved",
   "theorems": [
    "C38_pbkdf2",
    "C38_pbkdf2_hmac_sha256",
    "C38_no_iterations"
   ],
   "note": "For every 32-byte pseudorandom function, HMAC-SHA256 in particular; sizes up to the limit of the RFC."
  },
  {
   "property": "C39",
   "status": "proved",
   "theorems": [
    "C39_container_bag_safe",
    "C39_volume_bag_safe"
   ],
   "note": ""
  },
  {
   "property": "C40",
   "status": "partial",
   "theorems": [
    "C40_container_bag_partial",
    "C40_volume_bag_partial",
    "C40_entries_round_trip_refuted"
   ],
   "note": "False for an entry without data, which makes the key bag unreadable. Proved for all lists of entries with data."
  },
  {
   "property": "C41",
   "status": "partial",
   "theorems": [
    "C41_packed_key_overread_partial",
    "C41_packed_key_safe_refuted"
   ],
   "note": "False: size bytes are read at the end of the payload without a check. Proved that at most 3 bytes after the payload are read."
  },
  {
   "property": "C42",
   "status": "partial",
   "theorems": [
    "C42_correct_password_partial",
    "C42_wrong_password_partial",
    "C42_primitives",
    "C42_correct_password_refuted"
   ],
   "note": "False when a record of an unsupported method comes first: unlock fails with an error. Proved for any number of records of supported methods, for every block cipher and hash, AES and SHA-256 in particular."
  },
  {
   "property": "C43",
   "status": "proved",
   "theorems": [
    "C43_history",
    "C43_like_fresh",
    "C43_correct_after_failures",
    "C43_stays_unlocked"
   ],
   "note": ""
  },
  {
   "property": "C44",
   "status": "partial",
   "theorems": [
    "C44_terminated_partial",
    "C44_refused",
    "C44_overflow_refuted",
    "C44_exact_length_refuted",
    "C44_unterminated_refuted"
   ],
   "note": "False: the buffer is sized by the NUL character, not the given length. Proved for strings without NUL characters that are followed by one."
  },
  {
   "property": "C45",
   "status": "partial",
   "theorems": [
    "C45_utf16_partial",
    "C45_utf16_refuted"
   ],
   "note": "False from 64 bytes on: the UTF-16 password includes its end-of-string character. Proved for up to 63 bytes, HMAC over any hash."
  },
  {
   "property": "C46",
   "status": "partial",
   "theorems": [
    "C46_selected_is_newest_partial",
    "C46_opens_newest_partial",
    "C46_damaged_superblock_refuted",
    "C46_outside_area_refuted"
   ],
   "note": "False: a damaged superblock in the descriptor area makes opening fail instead of being passed over, and the block after the area is scanned too. Proved: a container that opens uses a superblock no older than any valid one scanned; a consistent container opens with its newest superblock."
  },
  {
   "property": "C47",
   "status": "partial",
   "theorems": [
    "C47_crash_between_blocks_partial",
    "C47_torn_superblock_refuted",
    "C47_map_of_other_checkpoint_refuted"
   ],
   "note": "False for a torn superblock, and the checkpoint map is chosen independently of the superblock. Proved: a crash between two block writes of a checkpoint leaves a container that opens with the previous or the new checkpoint."
  },
  {
   "property": "C48",
   "status": "partial",
   "theorems": [
    "C48_number_of_volumes",
    "C48_volumes_by_index_partial",
    "C48_unreachable_volume_refuted"
   ],
   "note": "False when a slot not in use precedes one in use: the last volumes have no index. Proved when the slots in use come first; the number of volumes always."
  },
  {
   "property": "C49",
   "status": "proved",
   "theorems": [
    "C49_map_lookup",
    "C49_map_read"
   ],
   "note": ""
  },
  {
   "property": "C50",
   "status": "partial",
   "theorems": [
    "C50_calls_balanced_partial",
    "C50_no_deadlock_partial",
    "C50_lock_not_released_refuted"
   ],
   "note": "False for getting a snapshot by index with an invalid index, which returns without releasing the lock. Proved for the other lock-taking functions, for any number of threads. The lock skeleton of the functions is generated from the source by tools/lock_skeleton.py."
  },
  {
   "property": "C51",
   "status": "partial",
   "theorems": [
    "C51_one_handle_partial",
    "C51_one_thread_partial",
    "C51_shared_cache_refuted"
   ],
   "note": "False: the node cache has no lock of its own, so that threads with different file entries can free a node in use. Proved for calls through one handle and for one thread."
  },
  {
   "property": "C52",
   "status": "partial",
   "theorems": [
    "C52_snapshot_name_partial",
    "C52_long_name_partial",
    "C52_name_read_beyond_end_refuted"
   ],
   "note": "False for a stored name of less than 256 bytes without NUL, which is read beyond its end. Proved for names that end with a NUL and for names of 256 bytes or more."
  },
  {
   "property": "C53",
   "status": "partial",
   "theorems": [
    "C53_snapshots_virtual_tree_partial",
    "C53_snapshots_single_node_partial",
    "C53_physical_tree_refuted"
   ],
   "note": "False for trees of more than one node: references between their nodes are block numbers but are looked up in the object map. Proved for single nodes and for trees with virtual nodes."
  },
  {
   "property": "C54",
   "status": "proved",
   "theorems": [
    "C54_omap_history_independent",
    "C54_fs_history_independent",
    "C54_lookups_history_independent"
   ],
   "note": "Any sequence of object map lookups, inode lookups, enumerations and lookups by name and path through one handle, any eviction policy, any image."
  },
  {
   "property": "C55",
   "status": "proved",
   "theorems": [
    "C55_entry_and_attribute_round_trip"
   ],
   "note": ""
  },
  {
   "property": "C56",
   "status": "partial",
   "theorems": [
    "C56_paths_utf16_partial",
    "C56_paths_utf16_refuted"
   ],
   "note": "False for a path that is one 16-bit unit and several bytes. Proved for all paths of two or more 16-bit units, on every image."
  },
  {
   "property": "C57",
   "status": "proved",
   "theorems": [
    "C57_packed_key_round_trip"
   ],
   "note": ""
  },
  {
   "property": "C58",
   "status": "partial",
   "theorems": [
    "C58_unlocked_with_keys_partial",
    "C58_unlocked_with_keys_refuted"
   ],
   "note": "False when the container key bag could not be read: unlock succeeds without keys. Proved for volumes with a key bag."
  },
  {
   "property": "C59",
   "status": "proved",
   "theorems": [
    "C59_open_any_device",
    "C59_volume_by_index_any_device"
   ],
   "note": ""
  },
  {
   "property": "C60",
   "status": "proved",
   "theorems": [
    "C60_read_any_extents",
    "C60_calls_any_extents"
   ],
   "note": ""
  },
  {
   "property": "C61",
   "status": "proved",
   "theorems": [
    "C61_superblock_accepted_iff_valid",
    "C61_superblock_of_block"
   ],
   "note": ""
  },
  {
   "property": "C62",
   "status": "partial",
   "theorems": [
    "C62_volume_opens_recorded_state_partial",
    "C62_volume_name",
    "C62_physical_snapshot_tree_refuted"
   ],
   "note": "False with a snapshot tree of more than one node (C53). Proved for all other volumes."
  },
  {
   "property": "C63",
   "status": "proved",
   "theorems": [
    "C63_open_safe_on_any_device"
   ],
   "note": ""
  },
  {
   "property": "C64",
   "status": "partial",
   "theorems": [
    "C64_snapshot_opens_own_superblock_partial",
    "C64_bad_index_is_an_error",
    "C64_block_number_truncated_refuted"
   ],
   "note": "False for block numbers of 2^32 and more, of which only the lower 32 bits are used. Proved below that."
  },
  {
   "property": "C65",
   "status": "partial",
   "theorems": [
    "C65_small_tree_partial",
    "C65_lookups_partial",
    "C65_freed_node_used_refuted"
   ],
   "note": "False for trees of more than 8192 nodes: an enumeration keeps a pointer to a branch node that the cache frees as its oldest value. Proved for trees of up to 8192 nodes, any calls and any replacement, and for inode lookups on any tree. The counterexample takes the object map as a function."
  },
  {
   "property": "C66",
   "status": "partial",
   "theorems": [
    "C66_file_entry_partial",
    "C66_file_entry_refuted"
   ],
   "note": "False for a file with an attribute whose name is a byte order mark followed by com.apple.decmpfs, which is read as a compressed file. Proved for files below 8 TiB whose attribute names are valid, distinct and do not start with a byte order mark, with the limits of C11 on compressed files."
  },
  {
   "property": "C67",
   "status": "partial",
   "theorems": [
    "C67_extended_attributes_partial",
    "C67_extended_attributes_refuted"
   ],
   "note": "False for names that start with a byte order mark, which is skipped in the stored name only. Proved for the other names."
  },
  {
   "property": "C68",
   "status": "partial",
   "theorems": [
    "C68_directory_partial",
    "C68_directory_refuted"
   ],
   "note": "False for names that start with a byte order mark: it is dropped, so that two entries of a directory report the same name. Proved for the other names."
  },
  {
   "property": "C69",
   "status": "partial",
   "theorems": [
    "C69_listed_name_found_partial",
    "C69_listed_name_found_refuted"
   ],
   "note": "False for names of one character, which give the directory itself. Proved for names of two or more units under the conditions of C22 (hashes other than 0, no other spelling of the name in the directory that differs in case)."
  },
  {
   "property": "C70",
   "status": "partial",
   "theorems": [
    "C70_parent_partial",
    "C70_parent_refuted"
   ],
   "note": "False for hard links: the parent is the one in the inode, whichever directory the entry was found in. Proved: it is the object the inode names as parent, and none for the root."
  },
  {
   "property": "C71",
   "status": "partial",
   "theorems": [
    "C71_like_fresh_partial",
    "C71_early_use_refuted"
   ],
   "note": "Depends on libcaes, which is not in the repository: if it gives output before keys were set, blocks decrypted without the keys stay in the cache after unlocking (refuted). Proved when it gives an error, and for volumes without a key bag."
  },
  {
   "property": "C72",
   "status": "partial",
   "theorems": [
    "C72_lookup_unlocks_partial",
    "C72_second_password_refuted",
    "C72_no_second_try"
   ],
   "note": "False after a first lookup that failed for want of the right password: later lookups do not try again, for any volume (C72_no_second_try). Proved as long as only passwords were set before."
  },
  {
   "property": "C73",
   "status": "partial",
   "theorems": [
    "C73_file_from_device_partial",
    "C73_short_path_refuted"
   ],
   "note": "False for paths of one character: on a device whose root directory holds the file e, the path e gives the root directory in both encodings (C23). Proved for paths of two or more UTF-16 units whose components are in the stored case (C22, C23 and C56 say why), tree blocks below 2^31, devices that are not Fusion, blocks of 4096 bytes, volume slots without gaps, and a user or recovery password that opens an entry of the key bag. The file may be stored as it is, encrypted, or compressed with DEFLATE or LZVN (decoder arbitrary)."
  },
  {
   "property": "C74",
   "status": "proved",
   "theorems": [
    "C74_mount_names",
    "C74_mount_names_differ",
    "C74_path_strings_total"
   ],
   "note": "For names of Unicode characters without NUL whose escaped size is below SSIZE_MAX (fits)."
  },
  {
   "property": "C75",
   "status": "partial",
   "theorems": [
    "C75_mount_open_partial",
    "C75_mount_open_refuted",
    "C75_trailing_separator_refuted"
   ],
   "note": "False for names with a path separator: the entry a/b is listed as a\\x2fb, which opens the entry b of a directory a. Proved for names without one (paths in the stored case, of two or more units; C22, C23 and C56 say why). A separator at the end of a path is meant to be ignored but makes the lookup fail."
  },
  {
   "property": "C76",
   "status": "partial",
   "theorems": [
    "C76_printed_path_opens_partial",
    "C76_printed_path_opens_refuted"
   ],
   "note": "False for names with a path separator: the entry a/b of the root is printed like the entry b of the directory a, and the path opens the second. Proved for names without one (paths in the stored case, of two or more units; C22, C23 and C56 say why)."
  },
  {
   "property": "C77",
   "status": "partial",
   "theorems": [
    "C77_bodyfile_line_partial",
    "C77_paths_differ",
    "C77_bodyfile_line_refuted",
    "C77_time_refuted"
   ],
   "note": "False for symbolic links, whose target is printed without escaping and can add lines about files that do not exist, and for times before 1970, which are printed as no number. Proved for files without a link target and with times from 1970 on, for any MD5 of 16 bytes; the columns are those of the inode as the library reads it, which exchanges the times of creation and modification (C31)."
  },
  {
   "property": "C78",
   "status": "partial",
   "theorems": [
    "C78_hierarchy_partial",
    "C78_bodyfile_partial",
    "C78_hierarchy_refuted",
    "C78_root_name_refuted"
   ],
   "note": "False for directories that contain themselves, where the listing does not end, and for a root directory whose inode has no name, where nothing is listed. Proved for trees of finite depth (any depth with paths below 2^63/10 bytes) whose names are not empty and have no byte order mark in front; the bodyfile under the conditions of C77."
  },
  {
   "property": "C79",
   "status": "partial",
   "theorems": [
    "C79_option_number_partial",
    "C79_option_rejects",
    "C79_option_number_refuted"
   ],
   "note": "False: values from 2^64 on wrap around (18446744073709551618 is taken as 2, the root directory), and the empty text and a lone sign are taken as 0. Proved: numerals below 2^64 of at most 21 digits are taken as their value, with or without +; whatever is accepted is a sign or none and digits."
  },
  {
   "property": "C80",
   "status": "partial",
   "theorems": [
    "C80_file_dates_partial",
    "C80_one_date",
    "C80_last_day_refuted",
    "C80_before_1970_refuted"
   ],
   "note": "False for every time on 31 December 1999, which is an error, and for times of two days or more before 1970, for which the loop over centuries runs more than 5*10^14 times. Proved for all other times from 1970 on."
  },
  {
   "property": "C81",
   "status": "partial",
   "theorems": [
    "C81_file_object_partial",
    "C81_read_negative_refuted",
    "C81_read_all_refuted"
   ],
   "note": "False: read(-1) raises, and read() raises for files of 2^31 bytes or more, wherever the position is. Proved, for the files of C66, for all sequences of calls with sizes from 0 to 2^31-1."
  },
  {
   "property": "C82",
   "status": "partial",
   "theorems": [
    "C82_source_partial",
    "C82_bytes_at_partial",
    "C82_overrun_refuted",
    "C82_no_size_refuted"
   ],
   "note": "False: an object whose read gives more bytes than asked for makes the bindings write past the buffer, and a size that the object fails to give is reported as success with whatever the variable had. Proved for every object that behaves as a file, with or without get_size."
  },
  {
   "property": "C83",
   "status": "partial",
   "theorems": [
    "C83_sequence_partial",
    "C83_second_loop_refuted",
    "C83_index_refuted"
   ],
   "note": "False: the sequence is its own iterator, so a second loop over it gives nothing, and an index out of range is a ValueError. Proved: length, items in range and the first loop, given that the library gives the items by index (C68)."
  },
  {
   "property": "C84",
   "status": "partial",
   "theorems": [
    "C84_getattr_partial",
    "C84_size_fits",
    "C84_kind",
    "C84_link_size_refuted",
    "C84_times_refuted"
   ],
   "note": "False: the size of a symbolic link is 0, times before 1970 are rounded towards 1970, and the number of links is 1 (2 if bit 14 of the mode is set) whatever the inode says. Proved for files and directories with times from 1970 on and, unless a directory, one link."
  },
  {
   "property": "C85",
   "status": "partial",
   "theorems": [
    "C85_read_partial",
    "C85_readlink_partial",
    "C85_readlink_refuted"
   ],
   "note": "False: readlink fails with EIO if the target does not fit the buffer, instead of cutting it. Proved: all reads, and readlink for buffers that are large enough."
  },
  {
   "property": "C86",
   "status": "partial",
   "theorems": [
    "C86_listxattr_partial",
    "C86_getxattr_partial",
    "C86_listxattr_refuted"
   ],
   "note": "False: listxattr fails with EIO instead of ERANGE if the buffer is too small. Proved: listxattr otherwise, getxattr for all names and buffer sizes."
  },
  {
   "property": "C87",
   "status": "partial",
   "theorems": [
    "C87_readdir_partial",
    "C87_listed_getattr_partial",
    "C87_readdir_refuted"
   ],
   "note": "False: a directory below a directory whose inode has no name cannot be listed. Proved for directories whose parent has one, or that are the root, and entries that C84 is about."
  },
  {
   "property": "C88",
   "status": "partial",
   "theorems": [
    "C88_no_use_after_free_partial",
    "C88_free_in_any_order_partial",
    "C88_closed_container_refuted",
    "C88_opened_again_refuted",
    "C88_freed_volume_refuted",
    "C88_freed_entry_refuted",
    "C88_freed_volume_snapshot_refuted",
    "C88_freed_handle_refuted"
   ],
   "note": "False: objects point into the object they were got from; closing a container, or freeing a volume or file entry, leaves what was got from it with pointers to memory that was given back. Proved for programs that free what was got from an object first, and for any order of the final calls."
  },
  {
   "property": "C89",
   "status": "partial",
   "theorems": [
    "C89_no_leak_partial",
    "C89_snapshot_leak_refuted"
   ],
   "note": "False: the superblock of a snapshot is never freed. Proved: nothing else is left, whatever the order of the final calls."
  },
  {
   "property": "C90",
   "status": "partial",
   "theorems": [
    "C90_python_no_use_after_free_partial",
    "C90_open_by_name_partial",
    "C90_close_refuted",
    "C90_close_attribute_refuted",
    "C90_open_file_object_twice_refuted"
   ],
   "note": "False: close() while a volume, entry or attribute of the container is left; a second open_file_object frees the handle in use. Proved for all other programs."
  },
  {
   "property": "C91",
   "status": "proved",
   "theorems": [
    "C91_python_no_leak",
    "C91_python_keeps"
   ],
   "note": "For programs that keep the two rules of C90."
  },
  {
   "property": "C92",
   "status": "partial",
   "theorems": [
    "C92_signature",
    "C92_opens_is_marked",
    "C92_marked_opens_refuted",
    "C92_volume_signature_refuted"
   ],
   "note": "The answer and the handle: proved for every file and handle that can be read. A file that opens has the container signature: proved. The other way around is false, and so is that a container with a volume has the volume signature (the check looks at the first block of the file only)."
  },
  {
   "property": "C93",
   "status": "partial",
   "theorems": [
    "C93_options",
    "C93_dash_refuted",
    "C93_long_option_refuted"
   ],
   "note": "False: a dash alone as a word is read past its end, and a word that begins with two dashes ends the options and is dropped without a message. Proved for all other command lines and every table of options."
  },
  {
   "property": "C94",
   "status": "partial",
   "theorems": [
    "C94_wrapped",
    "C94_width_refuted",
    "C94_no_room_refuted"
   ],
   "note": "Complete, in order, broken at blanks, at most one word behind the width: proved for every text and every width beyond the indentation. False: lines can be wider than the width (the first line of the help of fsapfsinfo is), and without any width the printing does not end."
  },
  {
   "property": "C95",
   "status": "partial",
   "theorems": [
    "C95_volumes",
    "C95_range",
    "C95_container_refuted",
    "C95_bad_index_refuted",
    "C95_all_refuted",
    "C95_unreadable_refuted"
   ],
   "note": "The mode, the volume of a number, the only volume, and all volumes: proved. False: -f is ignored when the container is shown, a bad number means all volumes, \"all\" is refused by -E, -F and fsapfsmount with several volumes, and an unreadable volume hides the ones after it."
  },
  {
   "property": "C96",
   "status": "partial",
   "theorems": [
    "C96_all_entries",
    "C96_next_refuted",
    "C96_unprintable_refuted"
   ],
   "note": "Proved for entries below the next identifier of the volume that can all be printed. False otherwise: entries from that identifier on are left out, and an entry that cannot be printed hides the ones after it."
  },
  {
   "property": "C97",
   "status": "partial",
   "theorems": [
    "C97_windows_names_partial",
    "C97_windows_names_differ",
    "C97_windows_strings_total",
    "C97_capital_digits",
    "C97_windows_names_refuted"
   ],
   "note": "Characters, different texts and the way back are proved for all names. False: the names of devices (aux) and names with a period or a space at the end, which Windows does not accept, are shown as they are."
  },
  {
   "property": "C98",
   "status": "partial",
   "theorems": [
    "C98_windows_open_partial",
    "C98_windows_read_partial",
    "C98_windows_read_only",
    "C98_old_versions",
    "C98_windows_open_refuted",
    "C98_open_always_refuted",
    "C98_separator_refuted"
   ],
   "note": "Proved for names without a slash. False: the name a/b opens the entry b of the directory a, a path with a separator at its end opens nothing, and with old versions of Dokan an existing file is not found with OPEN_ALWAYS."
  },
  {
   "property": "C99",
   "status": "partial",
   "theorems": [
    "C99_windows_information_partial",
    "C99_windows_information_refuted"
   ],
   "note": "Proved for times after 1970 and for kinds other than block devices and sockets. False: these are marked as directories, the time 0 is shown as 1601, times before 1970 are rounded up, and an empty file keeps the size that was in the structure."
  }
 ]
}