# Formal model of libfsapfs in Rocq (Coq 8.16.1)

Source: `/repo` (libyal/libfsapfs, C). The code is never built or run; it is read as text.
Development: `/verif/rocq/theories`, flags from `_CoqProject` (`-Q theories Verif`).

## Conventions of the model

* A byte is a `Z` in `[0,256)`; a buffer is a `list Z`; integers are `Z`. Where the C code can wrap
  (`uint16_t`, `uint32_t`, `uint64_t` arithmetic on untrusted values) the wrap is written out as
  `mod 2^n`. Lengths of C buffers are `Z`; `nat` is used for fuel and structural recursion only.
* `res A := Ok a | Fail | Oob | Fuel`. `Ok` is a normal return, `Fail` is `return( -1 )` with an error set,
  `Oob` is undefined behaviour (a read or write outside a buffer or of a NULL pointer),
  `Fuel` is an exhausted model recursion budget. Every memory access of a modelled function goes through
  a checked accessor which yields `Oob`; memory-safety theorems state `<> Oob`, termination theorems
  state `<> Fuel`. A C return of `0` ("not found") is an `Ok` with an option/boolean payload.
* Every definition has a comment with file and lines. Simplifications are noted there.
* Specifications live in `*Spec.v` files. They use list functions, `Base` arithmetic such as little-endian
  encoding, and where a result is a record, the record type of the model; they use no model functions.
* `Prop*.v` contain the theorems with `Print Assumptions`, and `Example`s that instantiate their
  hypotheses. A theorem ending in `_partial` proves less than the property (its note in `MANIFEST.json` says
  what is missing); `_refuted` gives a witness against the full statement.
* External libraries (libcdata, libfdata, libfcache, libuna, libbfio, libcaes, libhmac, libfmos) are not in
  the repository. They are modelled by their documented behaviour (arrays as lists, streams as the
  segment they wrap, caches as described where the property is about caching, UTF decoding as code point
  lists) or as section variables (block cipher, hash, decompressor) that the theorem quantifies over.
* Memory allocation is assumed to succeed; NULL-argument checks of the API are not modelled.
* `HAVE_DEBUG_OUTPUT`, `HAVE_PROFILER` code is not modelled.

## Plan per property

| id | modelled | proof idea |
|----|----------|-----------|
| C01 | fletcher64 loop with 64-bit wrap | loop invariant: accumulators = exact sums; congruences mod 2^32-1 |
| C02 | same | difference of two sums at one word position; refute for the 0 / 0xffffffff pair, prove otherwise |
| C03 | table construction and byte loop | 256-entry sweep lifted + xor-linearity, induction over bytes |
| C04 | 16-byte/5552-byte chunk loops | invariant modulo 65521 + bound on accumulators |
| C05 | bit buffer record, get_value | abstraction to the list of remaining bits; invariant on buffered bits; refute for wide reads |
| C06 | build + get_symbol | canonical code arithmetic (Kraft sums), induction on code length |
| C07 | whole inflate | simulation between bit reader and bit list, then decode(encode tokens) = expand tokens |
| C08 | whole inflate | invariants on indices; fuel measured by remaining bits |
| C09, C10 | zlib wrapper, dynamic trees | witnesses by vm_compute; positive partial statements |
| C11-C13 | compressed data handle state machine | refinement to slice of concatenated blocks; witnesses for refutations |
| C14, C15 | node parser | bounds; encode/parse round trip |
| C16 | object map lookup on node trees | sorted-tree refinement to a maximum over the flattened entry list |
| C17-C20 | file system tree lookups | same, over flattened sorted key lists |
| C21 | traversals over arbitrary block graphs | recursion-depth fuel argument |
| C22-C24 | name and path lookup | refinement to list search; witnesses for refutations |
| C25-C28 | name comparison and hash over code points | lexicographic order lemmas; table sweeps |
| C29-C32 | record parsers | bounds; round trips; bit arithmetic |
| C33-C35 | extent map, data handle, tweak numbering | induction over extents/blocks |
| C36-C38 | XTS loop, key unwrap, PBKDF2 over abstract primitives | induction over sectors/rounds/blocks |
| C39-C41 | key bag and DER parsers | bounds, fuel measure; witness of out-of-bounds read |
| C42-C45 | unlock state machine | induction over entries and call histories; witnesses |
| C46-C49 | container open scan, superblock, checkpoint map | fold invariant; crash-point witnesses |
| C50, C51, C54 | lock counting, interleavings of cache steps | invariant over call histories; witness interleaving |
| C52, C53 | snapshot metadata | witness, tree enumeration |
| C55 | record parsers | round trips of directory values and attributes |
| C56 | path splitting in both encodings | the two loops see the same code points |
| C57 | packed key objects | layout from the writer's side, parse gives the fields back |
| C58 | unlock | case split over the state after opening |
| C59, C63 | opening a container, a volume, a snapshot | every step is `Ok` or `Fail`; scan bounded by 2^32 rounds |
| C60 | data reads | `Ok` or `Fail` for any extents and any calls |
| C61, C62, C64 | volume superblock, volume open, snapshot open | layout from the writer's side; accepted iff valid |
| C65 | the node cache as a heap of nodes | nodes stay while the tree fits the cache; witness for a larger tree |
| C66, C67 | an open file entry with its lazily filled fields | invariant: a field is unset or has its final value; refinement to an array with a position |
| C68, C69, C70 | names, sub entries and parent of an entry | composition of C17, C18, C22, C23; a stored name has one spelling |
| C71, C72 | an open volume with its block and node caches, keys and file system, through any calls | invariant: caches hold what the current keys give, and are empty without keys |
| C73 | all of them: container, volume, unlock, lookup, file | composition of C16, C18, C22, C23, C42, C46, C48, C62, C66, C71; the specification `EndSpec.v` describes the device only; `PropEndPath.v` refutes it for a path of one character on the same device |
| C74, C75 | the names and paths of fsapfsmount | an escaped text determines the characters (induction over the name); size pass and copy pass agree; composition with C22, C23, C68 |
| C76–C79 | what fsapfsinfo prints and reads | numerals and escapes determine what they stand for; fields of a line by induction over its text; induction over the depth of the tree; composition with C22, C66, C68 |
| C80–C83 | the Python bindings | the loops over centuries, years and months against a calendar counted day by day; refinement of C66 to a file object; an arbitrary Python object as a state machine |
| C84–C87 | fsapfsmount as a file system | POSIX stat, readlink, read and the calls for extended attributes; refinement of C66, C67, C68, C74, C75 |
| C88, C89 | which memory the objects point at and give back | invariant over all programs: the blocks that are allocated are determined by the objects, and the pointers of objects that are left lead to objects that are left; a weaker one for the final calls |
| C90, C91 | the reference counts of the Python objects | invariant: a count is the number of references of the program and of objects got from it; the calls of the bindings keep the rules of C88 |
| C92 | the signature checks | case split over the handle; composition with C46 |
| C93, C94 | options and help texts of the tools | grammar of POSIX command lines as a relation, induction over it; invariants of the wrapping loop |
| C95, C96 | what the options of the tools select | last occurrence in the list of options; composition with C17, C79 |
| C97–C100 | fsapfsmount on Windows | as C74, C75, C84–C87, with UTF-16 and against what Windows says about names, FILETIME and the structures |
| C101, C102 | blocks that cannot be read | a relation between a computation on the whole and on the faulty device, kept by every function; for open entries and volumes the invariants of C66 and C71 with the fields that are filled in during faults |
| C103 | size of a container and reach of its trees | what opening takes from block 0; composition with C46, C48 |
| C104, C105 | a container object over many opens and closes; abort | invariant over call sequences against the file in use; simulation between a used and a new object |
| C106 | every call on any device returns | invariants of sources, entries, attributes and volume handles under every call, with no assumption on the blocks |
| C107 | extended attribute objects | simulation by a name, bytes with a position and extents |
| C108–C110 | the texts of fsapfsinfo about containers, volumes and entries | lines as items of a label and a value; the text is cut at its ends of line by lemmas for each kind of item; injectivity of the items |
| C111 | debug output | the verbose program against the plain one, step by step: equal or an error; equal exactly if the objects that are printed are there |
| C112, C113 | volumes, names and attributes in Python | conversion of arguments and strings (UTF-8 both ways), then C66, C68, C71, C107 |
| C114 | what Windows is told about a mounted volume | buffers and flags against the documentation of GetVolumeInformationW; examples of C97, C98 |
| C115 | allocated memory is given back | a heap of blocks with owners; nothing of the code's clean-up is assumed; four examples of losses |
| C116 | passwords and keys do not stay behind in memory | bytes that are somewhere in memory given back; which arrays are for secrets is stated, when they are cleared is not |
| C117 | the passwords of a command line decide which volume is read | the last option of its kind, the first record that a password opens, the record that its key opens (C42) |
| C118 | reading through a Python file object leaves no references behind | references counted over the list of what the binding does: received, given back, fetched with an exception |
| C119 | the interpreter is used only with the interpreter lock | the lock as a counter that Py_BEGIN_ALLOW_THREADS puts aside, over the same list |
| C120 | Python methods that make their results leave nothing but the result | references counted as for C118, from those that the caller and the container have |

## Trusted base

* Coq 8.16.1: the kernel, including the virtual machine (`vm_compute` is used in examples, refutations
  and finite sweeps), and the standard library. `vcheck` runs `coqchk` over all files.
* No axioms. `Print Assumptions` says `Closed under the global context` for every theorem listed in
  `MANIFEST.json`; every `Prop*.v` file prints it for each of its theorems during the build. `coqchk -o`
  lists only the seven entries of `Coq.ssr.ssrunder.Under_rel`, a module type of the standard library that
  nothing here depends on.
* No plugins, functors, module types or kernel options. Section variables are generalised at the end of
  their sections; theorems quantify over them.
* The reading of the C code. Each definition of the model cites the lines it stands for. Two parts are
  copied by scripts: the Unicode tables (`NameTables.v`) and the lock skeletons (`LockTable.v`, generated by
  `tools/lock_skeleton.py`).
* The specifications: what `*Spec.v` says about RFC 1950, 1951, 3394, 2898, FIPS 180-4, FIPS 197, IEEE 1619
  and the Apple File System Reference. AES, XTS, SHA-256 and HMAC (`Aes.v`, `Sha256.v`) are checked against
  published test vectors.

### External libraries

| library | assumption |
|---------|------------|
| libbfio | a device is a function from block numbers to what can be read of the block; negative offsets are errors |
| libfdata, vectors and streams | segments in order, elements of 4096 bytes, element index of type `int`; an element behind the size of the segments is an error; reads cut at the stream size; segments of 2^63 bytes and more, which libfdata refuses, are not considered |
| libfcache | at most one value per key; any eviction policy (C54, C65 positive part); for the counterexample of C65 the oldest value of 8192 is freed |
| libuna | well-formed UTF-8 and UTF-16 are decoded as Unicode defines, the rest is an error; stream functions read to a NUL or to the given size; a byte order mark at the start of a stream is skipped |
| libcaes, libhmac | functions on byte strings: arbitrary in the theorems, and AES-XTS, AES, SHA-256, HMAC-SHA256 in named instances; without keys an error or some output (C71 says for which) |
| libfmos (LZVN) | an arbitrary function that gives data or an error |
| libcthreads | POSIX read/write locks; a grab may fail, releasing a lock that is held does not |
| libcdata arrays | lists |

### What is modelled

| source file (libfsapfs_*.c) | model | remarks |
|------|-------|---------|
| checksum, deflate (Adler-32) | Checksum.v | whole files |
| bit_stream | BitStream.v | byte back-to-front storage, the only one used |
| huffman_tree, deflate | Huffman.v, Deflate.v | whole files |
| compression, compressed_data_header, compressed_data_handle | Compressed.v | built-in zlib decompressor |
| btree_node, btree_node_header, btree_footer, btree_entry | BTree.v | |
| object_map_btree, object_map_descriptor | Omap.v, Walk.v | |
| directory_record, inode, file_extent, attribute_values | Records.v | parsers; the accessors are field reads |
| file_system_btree | FsTree.v, FsName.v, NodeCache.v, Threads.v | both encodings; values in FsTree and FsName, memory in NodeCache and Threads |
| name, name_hash | Name.v, NameTables.v | |
| data_block_vector, file_system_data_handle, data_block, data_block_data_handle, buffer_data_handle, data_stream | DataRead.v | |
| encryption_context, password | Crypt.v | |
| key_bag_header, key_bag_entry, key_encrypted_key, container_key_bag, volume_key_bag | KeyBag.v | |
| volume | Volume.v (passwords, unlock), VolumeSuper.v (open, file system), Session.v (lookups, implicit unlock), Snapshot.v | |
| container_superblock, object, checkpoint_map, checkpoint_map_entry, object_map, container | Container.v | file offset 0; fusion drives are rejected by the code |
| volume_superblock, snapshot | VolumeSuper.v | |
| snapshot_metadata, snapshot_metadata_tree | Snapshot.v | |
| file_entry, attributes, extended_attribute | FileEntry.v, EntryName.v, FsName.v, DataRead.v, Locks.v | attributes, size, data, extents, link target, sub entries, parent, names |
| fsapfstools: path_string, mount_path_string, bodyfile, mount_handle (lookup by path), mount_file_entry (file name) | ToolPath.v, ToolMount.v | the narrow character (UTF-8) build; `bad` stands for what libuna does with numbers that are no Unicode character |
| fsapfstools: mount_fuse.c, mount_file_entry.c | ToolFuse.v | the calls of FUSE on a path or an open file; not modelled: file handles, a directory buffer that is full, the owner (that of the process) |
| fsapfstools: info_handle (numbers in options, bodyfile line, hierarchy, entry by path), digest_hash | ToolInfo.v | MD5 is a parameter; what was printed before an error is not kept; the prefix with the volume identifier is a parameter |
| pyfsapfs: datetime (POSIX time), file_entry (times, read, seek, offset, size), file_entries, file_object_io_handle, integer | PyTime.v, PyFile.v | exceptions are one answer, except for sequences; a Python object is any state machine with the methods |
| container, volume, file_entry, extended_attribute, snapshot (allocation, free and the pointers between objects) | Lifetime.v | every other call may follow all pointers of its object; a call that fails leaves nothing behind; lack of memory is not modelled |
| pyfsapfs: container, volume, file_entry, extended_attribute and the sequences (reference counts) | PyLife.v | without the reference to the file object of the program |
| support (signature checks) | Support.v | a file IO handle is its open state, its file and whether it closes |
| fsapfstools: fsapfstools_getopt.c | ToolOpt.v | getopt, the options string and the wrapped text; not modelled: the layout of the usage text |
| fsapfstools: fsapfsinfo.c, info_handle.c (modes), mount_handle.c (selection) | ToolMain.v | from the options to the volumes and file entries; what is printed of one volume or one entry is a parameter (C76–C78); not modelled: offsets, passwords, messages |
| fsapfstools with WINAPI: mount_path_string.c, mount_handle.c (paths), mount_file_system.c, mount_file_entry.c, mount_dokan.c | ToolWin.v | texts and paths in UTF-16, opening, reading, information, listing; Dokan itself is not modelled; what libuna makes of values that are no characters is a parameter |
| container, volume and file_entry with a device that changes | Faults.v | the fields of an open entry hold where its data is, each call reads from the device as it is then; nodes and blocks in caches count as readable; the cache of object map nodes is left out |
| container_data_handle | Walk.v, NodeCache.v | reading a block of the device, without a key |
| container (object state), io_handle | Reopen.v | members set or not, handles of the caller and of the library; the file IO handle is that of Support.v; node caches are left out (C54), so that reads through a handle the caller closed are errors |
| extended_attribute, attributes, attribute_values (objects) | ExtAttr.v | names, size, reads, seeks and extents; the extents shared by objects of one attribute are kept with each object, which changes no value |
| fsapfstools: info_handle (container, volume and file entry texts) | ToolText.v | libfguid as in RFC 4122 and the text of a date as a parameter; what was printed before an error is not kept |
| client of an open volume | Use.v | which entries can be reached from a volume and all calls on them; the theorems of C106 combine Session.v, FileEntry.v, EntryName.v and ExtAttr.v |
| container, volume, compressed_data_handle with debug output; container_reaper, extent_reference_tree, fusion_middle_tree, space_manager | Verbose.v | the objects that are read to be printed, type and subtype only (the code checks no more); the printing functions do not fail |
| pyfsapfs: volume (entries, passwords, unlock), file_entry (names, link target, lookups by name), extended_attribute | PyVol.v, PyAttr.v | PyUnicode_DecodeUTF8 and PyArg_ParseTuple as their documentation says; exceptions are one answer |
| fsapfstools with WINAPI: mount_dokan.c (volume information) | ToolWinVol.v | a buffer is what it holds |
| libfsapfs_file_system_btree.c (paths), libfsapfs_file_entry.c, libfsapfs_extended_attribute.c, libfsapfs_snapshot.c: allocating and freeing | Memory.v | one block for an object with all that its free function frees; allocations do not fail; proved to give the same answers as FileEntry.v and FsName.v |
| libfsapfs_password.c, libfsapfs_encryption_context.c (key unwrapping), libfsapfs_key_encrypted_key.c (unlocking), libfsapfs_volume_key_bag.c, libfsapfs_container_key_bag.c (keys), libfsapfs_volume.c (passwords, unlock, close): contents of arrays when they are given back | Secrets.v | arrays that were not written keep any earlier content; buffers whose contents are on the medium are left out; proved to give the same answers as Volume.v |
| fsapfsmount.c, fsapfsinfo.c (passwords), mount_handle.c, info_handle.c (passwords, volume by index, locked containers) | ToolPass.v | volumes are given as their key bags; the strings of builds without wide characters; mounting (FUSE) and the output are left out |
| pyfsapfs_file_object_io_handle.c, pyfsapfs_error.c, pyfsapfs_integer.c, pyfsapfs_container.c (open, close, free), pyfsapfs.c (references, lock) | PyRefs.v | the functions of the interpreter are arbitrary; the library reads in any order; values are in PyFile.v |
| pyfsapfs_file_entry.c, pyfsapfs_extended_attribute.c (read, read at offset, extents, names), pyfsapfs_volume.c (name): references | PyMake.v | the results of the library are parameters; the pointer NULL, where followed, is an object that nobody has |
| all API files | Locks.v, LockTable.v | lock operations only |

### What is not modelled

Memory allocation failure; NULL arguments; sizes above `SSIZE_MAX` where not stated; what debug output prints (what
it reads and can fail at is in Verbose.v) and the profiler; the rest of the command line tools (options, output, the start of FUSE and the glue for Dokan), the rest of the Python bindings and the version and code page calls of `libfsapfs_support.c`; `chunk_information_block`, which is never called; the abort flags of the tools; allocations that fail, and leaks outside of path lookups, file entries, extended attribute objects and snapshots.

## Findings

What the refutations say about the code (all by reading, none executed):

* C02 a word 0 replaced by 0xffffffff is not detected (a property of the checksum itself).
* C05, C09, C10 the bit reader loses bits in reads of more than 25 bits; a zlib stream that ends early is
  accepted; a dynamic block without distance codes is rejected.
* C11, C12, C13 a block table of 8160 or more DEFLATE blocks is read past its buffer; after a failed read
  the cached block has the wrong content.
* C15, C16, C17-C20 room for a footer is taken off in nodes without footer; identifier 0; identifiers of more
  than 60 bits alias; an identifier below all keys of a tree with branch nodes is an error.
* C22, C23, C24, C56 branch nodes are always searched case-sensitively; hash 0 is taken as no hash; one-unit
  paths are the directory itself; the lookup by single name has an inverted check; a NUL acts as a separator.
* C26 no canonical equivalence across characters; Hangul syllables other than first and last.
* C31 creation and modification time swapped; extended field type 16 rejected.
* C33, C34, C35 holes without a record; a last block that is cut; encryption identifiers of 2^52 and more.
* C36, C40, C41, C42, C44, C45, C58 sizes that are no multiple of the sector; empty key bag entries; sizes
  read past the end of a packed key; one record of an unsupported method blocks the following ones; passwords
  with a NUL or without one; UTF-16 passwords of 64 bytes and more; unlock without keys.
* C46, C47, C48 one damaged block of the descriptor area makes the container unreadable; the block after the
  area is scanned; the map is selected independently of the superblock; unused slots hide volumes.
* C50, C51, C65 a lock that is not released; the node cache is shared between threads without a lock; a node
  may be freed while an enumeration uses it.
* C52, C53, C62, C64 a snapshot name is read as 256 bytes whatever its size; snapshot trees of more than one
  node do not open; block numbers are cut to 32 bits.
* C66, C67 an attribute whose name starts with a byte order mark is taken for the one without it; a neighbour
  attribute whose name does not decode makes size and reads of the file fail.
* C68, C69, C70 the same for file names, so that two entries report one name; a listed name of one character
  opens the directory; the parent of a hard link is the one in the inode.
* C71, C72 after a lookup without the right password the file system stays set up without keys: setting the
  right password is then not enough, and blocks read without keys may stay in the cache after unlocking.
* C75 fsapfsmount shows the entry "a/b" as a\x2fb, which opens the entry b of a directory a; a path with a
  separator at its end fails because the length of its last name is computed as -1.
* C76, C77, C78, C79 fsapfsinfo prints the entry "a/b" like the entry b of a directory a; the target of a
  symbolic link is printed without escaping and can add whole lines to a bodyfile; times before 1970 become
  texts like 0.-00000005; a directory that contains itself is listed without end; a root directory without a
  name in its inode makes the listing fail; numbers from 2^64 on wrap around.
* C80 in Python a time on 31 December 1999 is an error, and a time before 30 December 1969 does not come back.
* C81, C82, C83 read(-1) raises, and read() raises for files of 2 GiB or more; a file object that gives more
  bytes than asked for makes the bindings write past the buffer; a failing get_size is reported as success; the
  sequence of sub entries can be looped over once.
* C84, C85, C86, C87 on a mounted volume the size of a symbolic link is 0, times before 1970 are one second
  late, the number of links is 1 or 2; readlink and listxattr fail with EIO if the buffer is too small; a
  directory whose parent inode has no name cannot be listed.
* C88, C89, C90 a volume uses the memory of its container, an entry that of its volume, an attribute that of its
  entry, after close and free as well; in Python close() has the same effect. A freed snapshot leaves its
  superblock. A second open_file_object on a Python container fails and frees the handle that is in use.
* C92 a file with the signature need not open; the check for volumes looks at the first block of the file only, so
  that it says no for every container.
* C93, C94 a dash alone as an argument is read past its end; "--anything" is dropped without a message; the first
  line of the help of fsapfsinfo is wider than the 80 columns it is wrapped for.
* C95, C96 -f is ignored when the container is shown, a bad index means all volumes, "all" is refused by -E, -F and
  fsapfsmount when there are several volumes; a volume or entry that cannot be read hides the ones after it.
* C97–C100 device names and names with a period at the end are shown to Windows as they are; a separator at the end
  of a path makes it unusable; block devices and sockets are directories; the time 0 is 1601; one name of 26 units
  makes its directory fail, or with long paths writes beyond the name in the structure.
* C101 on a mounted volume an unreadable block of the tree makes files look as if they did not exist (ENOENT and its
  counterpart on Windows), instead of an input/output error.
* C103 the size of a container, and with it the limit for the nodes of all trees, is taken from the superblock in
  block 0 before the newest superblock is known; it stays that of the old superblock.
* C104 an open whose lock cannot be grabbed leaves the container half open (it can be neither opened nor closed) or
  open with a freed handle. C105 nothing reads the abort flag of a container.
  C106 a table of compressed data or a packed key that claims too much makes a call leave its
  buffer (C13, C41). C107 the identifiers of attributes are all 0; an attribute with neither
  flag accepts every seek and gives no offset.
* C108–C110 names, link targets and names of attributes are printed as they are, with ends of line; the device number
  is split at 8 bits (macOS: 24); -E fails for an inode without a name field; the path of -F is escaped again.
* C111 debug output reads objects that nothing else needs (space manager, reaper, extent reference tree, the footer of
  a fork); when they are damaged, a container, volume or file cannot be opened with it. For the extent reference tree
  this goes for every build with debug output, verbose or not.
* C112 get_file_entry_by_identifier raises for an identifier without an entry although None is documented; integers
  out of 64 bits are taken modulo 2^64; set_password with an empty string raises and forgets the earlier password.
  C113 names that differ in a leading byte order mark are the same string in Python.
* C114 a buffer of exactly the size of the name gets no volume name; Windows is told that every volume is case
  sensitive, and that names have at most 256 units although escaped ones can be longer.
* C115 memory is lost by a path with an empty component after a found one (the record of the directory), by asking for
  the size of a file with fewer than 16 bytes of com.apple.decmpfs (a data stream), by reading any compressed file (the
  stream of the compressed data) and by opening a snapshot (its superblock).
* C116 unlocking leaves the first 8 bytes of the volume key and of the key of the files on the stack (block_data of
  libfsapfs_encryption_aes_key_unwrap); libfsapfs_password_pbkdf2 leaves its last hash, which is the whole key derived
  from the password when the record has one iteration.
* C117 fsapfsmount mounts a volume of a container with hardware encryption without password and without keys, since
  libfsapfs_volume_unlock reports success without a key bag (C58) and mount_handle_open does not look at
  container_is_locked; fsapfsinfo looks at it only when it shows the container. `-p ""` is an error although the
  password of -r is right.
* C118 pyfsapfs_error_fetch gets the type, value and traceback of an exception from PyErr_Fetch and gives none of them
  back: every failing method of a file object is kept with its traceback and the frames in it.
  pyfsapfs_error_fetch_and_raise in addition keeps the string of the message. open_container,
  open_container_file_object and the end of an open container object drop the result None of the method they call
  without giving its reference back. A second `__init__` of an open container object forgets the file object.
* C120 read_buffer and read_buffer_at_offset of file entries and extended attributes pass the result of
  PyBytes_FromStringAndSize to PyBytes_AsString, and get_extent_by_index that of PyTuple_New to PyTuple_SetItem, without
  looking whether it is NULL: without memory for the string (up to 2 GiB) or the tuple, NULL is followed. If
  PyTuple_SetItem ever failed, the number would be given back twice (PyTuple_SetItem gives it back itself).

## Seeded bugs

`seeded/LOG.jsonl` has one line per wrong variant of the model that was tried: the definition, the edit, the
claim it breaks, the theorems that stopped proving, and what was tightened when one did not.
