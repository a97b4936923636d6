{"id": "C01", "title": "Directory index stays a balanced search tree", "statement": "Adding entries to a directory table, in any number and any order, never panics and never loops; afterwards the index is a binary search tree in name order, whose parent links and stored heights are right and whose sibling subtrees differ in height by at most one.", "quantifier": "every finite sequence of insertions of any totally ordered element type", "why_tests_cant": "Rotations depend on insertion order; 1000 random integers cannot visit every rotation context, depth and duplicate position.", "anchors": ["xdvdfs-core/src/write/avl.rs: AvlTree::insert, rebalance, l_rotate, r_rotate, rl_rotate, lr_rotate"]}
{"id": "C02", "title": "Insertion is set insertion", "statement": "insert returns true exactly when no equal element was inserted before; an insertion that returns false leaves the tree exactly as it was; the in-order contents are the strictly sorted list of the first inserted representative of every distinct key.", "quantifier": "every insertion history", "why_tests_cant": "Needs all histories, including duplicates that arrive after arbitrary rotations.", "anchors": ["xdvdfs-core/src/write/avl.rs: AvlTree::insert", "xdvdfs-core/src/write/dirtab.rs: add_node"]}
{"id": "C03", "title": "Directory index depth is logarithmic", "statement": "An index of n entries has depth d with F(d+2) <= n+1 for F the Fibonacci numbers, so d <= 2*log2(n+1)+1 and stored i32 heights cannot overflow.", "quantifier": "every insertion history", "why_tests_cant": "Depth bounds are about all shapes the algorithm can reach.", "anchors": ["xdvdfs-core/src/write/avl.rs: rebalance, update_node_height"]}
{"id": "C04", "title": "Preorder reordering of the backing store is exact", "statement": "Reordering the backing vector makes its i-th element the i-th element of the preorder traversal, keeps the same tree (same preorder, in-order, links, heights), and never panics.", "quantifier": "every tree reachable by insertions", "why_tests_cant": "The in-place permutation goes wrong only for particular parent/sibling position coincidences.", "anchors": ["xdvdfs-core/src/write/avl.rs: reorder_backing_preorder, swap_backing_elements, parent_node_ref"]}
{"id": "C05", "title": "File name comparison is a total order modulo ASCII case", "statement": "Comparison is reflexive, antisymmetric up to Equal, transitive and total; two names compare Equal exactly when they agree after mapping a-z to A-Z; it is the lexicographic order of the upper-cased code points.", "quantifier": "all pairs and triples of strings", "why_tests_cant": "Infinite domain; search-tree correctness depends on every triple.", "anchors": ["xdvdfs-core/src/util.rs: cmp_ignore_case_utf8"]}
{"id": "C06", "title": "Volume descriptor codec round-trips", "statement": "Serializing a volume descriptor gives 2048 bytes at the documented field offsets; deserializing them gives the descriptor back; every 2048-byte buffer deserializes and re-serializes to itself.", "quantifier": "all descriptors with in-range fields, all 2048-byte buffers", "why_tests_cant": "All field values and all buffers.", "anchors": ["xdvdfs-core/src/layout.rs: VolumeDescriptor::serialize, deserialize, is_valid"]}
{"id": "C07", "title": "Directory entry codec round-trips", "statement": "Serializing a directory entry node gives 14 little-endian bytes in the documented order; deserialize inverts it; every 14-byte buffer deserializes and re-serializes to itself.", "quantifier": "all nodes with in-range fields, all 14-byte buffers", "why_tests_cant": "All field values.", "anchors": ["xdvdfs-core/src/layout.rs: DirectoryEntryDiskNode::serialize, deserialize"]}
{"id": "C08", "title": "Name encoding round-trips", "statement": "A name that the writer accepts is encoded in one byte per character, at most 255 bytes, and decoding these bytes gives the same name; decoding an on-disk name never fails; a name is rejected exactly when some character has no windows-1252 code or it is longer than 255 UTF-8 bytes.", "quantifier": "all strings and all byte sequences", "why_tests_cant": "All strings over Unicode.", "anchors": ["xdvdfs-core/src/layout.rs: encode_name, name_str, len_on_disk", "xdvdfs-core/src/write/dirtab.rs: add_node"]}
{"id": "C09", "title": "Directory tables are laid out legally", "statement": "In a serialized directory table every entry starts at a multiple of 4, no entry crosses a 2048-byte boundary, entries appear in preorder without overlap, every gap byte is 0xff, the total is padded to a multiple of 2048, and the size announced beforehand (compute_size/dirtab_size) is the end of the last entry.", "quantifier": "every set of names a table can hold", "why_tests_cant": "Alignment faults appear only at particular name-length combinations near a sector end.", "anchors": ["xdvdfs-core/src/write/dirtab.rs: sector_align, compute_size, disk_repr"]}
{"id": "C10", "title": "Child pointers are exact", "statement": "In a serialized table each entry's left/right field times 4 is the offset of its left/right child, is 0 exactly when there is no child, and is never 0xffff (which the tree walker treats as absent).", "quantifier": "every set of names a table can hold", "why_tests_cant": "The 0xffff coincidence would need one exact table size.", "anchors": ["xdvdfs-core/src/write/dirtab.rs: disk_repr", "xdvdfs-core/src/read.rs: walk_dirent_tree"]}
{"id": "C11", "title": "Serializing a directory table never panics", "statement": "disk_repr after compute_size either succeeds or reports TooManyDirectoryEntries; it reports TooManyDirectoryEntries exactly when the table would be larger than 262144 bytes; none of its assertions can fail and no index is out of range.", "quantifier": "every reachable table and allocator state without 32-bit overflow", "why_tests_cant": "Assertions guard arithmetic over all name-length sequences.", "anchors": ["xdvdfs-core/src/write/dirtab.rs: disk_repr, compute_size"]}
{"id": "C12", "title": "Allocated regions never overlap", "statement": "Consecutive allocations are contiguous, start at sector 33, are pairwise disjoint, and each is large enough for the requested bytes.", "quantifier": "every sequence of allocation requests whose total fits in 32 bits", "why_tests_cant": "All request sequences.", "anchors": ["xdvdfs-core/src/write/sector.rs: SectorAllocator, required_sectors"]}
{"id": "C13", "title": "Allocator overflow is detected", "statement": "When the sectors requested exceed the 32-bit range an allocation fails visibly instead of returning a region that overlaps an earlier one.", "quantifier": "every sequence of requests, in debug and in release builds", "why_tests_cant": "Needs more than 8 TiB of files.", "anchors": ["xdvdfs-core/src/write/sector.rs: allocate_contiguous"]}
{"id": "C14", "title": "Packing preserves every file", "statement": "After create_xdvdfs_image succeeds, opening the output with read_volume succeeds, and walk_path on the path of any source file returns an entry with the file's name and size and read_data_all on it returns exactly the source bytes; every source directory is found as a directory.", "quantifier": "every source tree, every path in it, any listing order", "why_tests_cant": "Round trip over all trees, names, sizes and layouts.", "anchors": ["xdvdfs-core/src/write/img.rs: create_xdvdfs_image", "xdvdfs-core/src/read.rs: read_volume, walk_path", "xdvdfs-core/src/layout.rs: read_data_all"]}
{"id": "C15", "title": "Lookups ignore ASCII case", "statement": "In a packed image walk_path finds the same entry for any two paths that differ only in ASCII letter case.", "quantifier": "every source tree and every path spelling", "why_tests_cant": "All spellings of all paths.", "anchors": ["xdvdfs-core/src/read.rs: find_dirent, walk_path"]}
{"id": "C16", "title": "Missing paths are reported as missing", "statement": "In a packed image walk_path on a path that names no source entry returns DoesNotExist, or IsNotDirectory when a proper prefix names a file; it never returns another entry, an I/O error or a panic.", "quantifier": "every source tree and every absent path", "why_tests_cant": "All absent paths.", "anchors": ["xdvdfs-core/src/read.rs: find_dirent, walk_path"]}
{"id": "C17", "title": "Recursive listing is exact", "statement": "file_tree on a packed image returns every source file and directory exactly once, with its parent path, name, kind and size, and nothing else.", "quantifier": "every source tree", "why_tests_cant": "All trees.", "anchors": ["xdvdfs-core/src/read.rs: walk_dirent_tree, file_tree"]}
{"id": "C18", "title": "Sector scan and tree walk agree", "statement": "On a packed image, scanning a directory sector by sector and walking its tree return the same entries, each exactly once.", "quantifier": "every directory of every packed image", "why_tests_cant": "Scan correctness depends on padding at every sector end.", "anchors": ["xdvdfs-core/src/read.rs: scan_dirent_tree, next_entry, walk_dirent_tree"]}
{"id": "C19", "title": "Packing succeeds exactly on representable trees", "statement": "create_xdvdfs_image on a growable file succeeds when, in every directory, names are pairwise different ignoring ASCII case, windows-1252 encodable and at most 255 UTF-8 bytes, files are below 4 GiB, the table fits in 256 KiB and the sectors fit in 32 bits; otherwise it returns the corresponding error (DuplicateFileName, StringEncodingError, FileNameTooLong, FileTooLarge, TooManyDirectoryEntries).", "quantifier": "every source tree", "why_tests_cant": "Both directions over all trees.", "anchors": ["xdvdfs-core/src/write/img.rs: create_dirent_tables, create_xdvdfs_image", "xdvdfs-core/src/write/dirtab.rs"]}
{"id": "C20", "title": "Packing never panics", "statement": "create_xdvdfs_image on a growable file terminates and never panics, whatever the names, sizes and nesting, as long as 32-bit size arithmetic does not overflow.", "quantifier": "every source tree and listing order", "why_tests_cant": "unwrap/expect/assert reachability over all trees.", "anchors": ["xdvdfs-core/src/write/img.rs", "xdvdfs-core/src/write/dirtab.rs", "xdvdfs-core/src/write/avl.rs"]}
{"id": "C21", "title": "Image geometry", "statement": "A packed image has a length that is a multiple of 65536, its volume descriptor is at sector 32 and points to the root table at sector 33, and every byte outside the volume descriptor and the allocated regions is zero.", "quantifier": "every source tree", "why_tests_cant": "All trees.", "anchors": ["xdvdfs-core/src/write/img.rs: create_xdvdfs_image"]}
{"id": "C22", "title": "Interrupted packing is never mistaken for a complete image", "statement": "If packing stops after any prefix of its writes, with the last write torn at any byte, then either read_volume rejects the output or every file of the source can already be read back intact.", "quantifier": "every source tree, every crash point", "why_tests_cant": "Every crash point and torn write.", "anchors": ["xdvdfs-core/src/write/img.rs: create_xdvdfs_image (volume descriptor written last)"]}
{"id": "C23", "title": "Progress reports add up", "statement": "On success the number of DirAdded plus FileAdded events equals the announced FileCount plus DirCount, the reported sectors are the ones used in the image, and FinishedPacking is reported last and only on success.", "quantifier": "every source tree", "why_tests_cant": "All trees.", "anchors": ["xdvdfs-core/src/write/img.rs: ProgressInfo, create_xdvdfs_image"]}
{"id": "C24", "title": "Listing order does not matter", "statement": "Packing the same tree with the directory listings in a different order gives an image with the same paths, sizes and contents.", "quantifier": "every source tree and every permutation of its listings", "why_tests_cant": "All permutations.", "anchors": ["xdvdfs-core/src/write/img.rs", "xdvdfs-core/src/write/avl.rs"]}
{"id": "C25", "title": "Volume detection is exact", "statement": "read_volume succeeds exactly when the 2048 bytes at sector 32 can be read and carry the magic at their start and end; otherwise it returns InvalidVolume.", "quantifier": "all devices and contents", "why_tests_cant": "All contents.", "anchors": ["xdvdfs-core/src/read.rs: read_volume", "xdvdfs-core/src/layout.rs: is_valid"]}
{"id": "C26", "title": "Partition offset probing", "statement": "Opening a raw image selects the first of the offsets 0, 405798912, 265879552, 34078720 at which a valid volume is found, later reads are shifted by it, and InvalidVolume is returned when there is none.", "quantifier": "all devices", "why_tests_cant": "All contents.", "anchors": ["xdvdfs-core/src/blockdev.rs: OffsetWrapper::new, read"]}
{"id": "C27", "title": "Whole-file reads are exact", "statement": "read_data_all returns exactly the bytes of the entry's region, of exactly its size; an empty file needs no device access; a device failure is returned as an I/O error.", "quantifier": "all devices, all entries", "why_tests_cant": "All entries.", "anchors": ["xdvdfs-core/src/layout.rs: read_data_all, read_data"]}
{"id": "C28", "title": "Ranged reads stay inside the file", "statement": "read_data_offset(size, offset) returns the bytes of the file from offset, at most size and never bytes outside the file.", "quantifier": "all devices, entries, offsets and sizes", "why_tests_cant": "All offsets; fails only near the end of a file.", "anchors": ["xdvdfs-core/src/layout.rs: read_data_offset"]}
{"id": "C29", "title": "Path syntax is normalized", "statement": "walk_path ignores leading slashes and one trailing slash; the empty path and any path made of slashes only is reported as having no entry.", "quantifier": "all path strings", "why_tests_cant": "All strings.", "anchors": ["xdvdfs-core/src/read.rs: walk_path"]}
{"id": "C30", "title": "Lookups are sound on untrusted images", "statement": "On any image whatsoever, if walk_path returns an entry then the entry's name equals the last path component up to ASCII case, the entry is stored in the image at the reported offset, and every earlier component named a directory.", "quantifier": "all images and paths", "why_tests_cant": "Arbitrary, also malicious, images.", "anchors": ["xdvdfs-core/src/read.rs: find_dirent, walk_path, read_dirent"]}
{"id": "C31", "title": "Lookups are complete on well-formed images", "statement": "On any image whose directory tables are search trees in name order (not only images written by this library) find/walk_path finds every entry, and reports a name that is absent as DoesNotExist.", "quantifier": "all well-formed images and names", "why_tests_cant": "All well-formed tables.", "anchors": ["xdvdfs-core/src/read.rs: find_dirent, walk_path"]}
{"id": "C32", "title": "Traversal terminates on untrusted images", "statement": "Lookups and listings return on every image.", "quantifier": "all images", "why_tests_cant": "Needs an adversarial image.", "anchors": ["xdvdfs-core/src/read.rs: find_dirent, walk_dirent_tree, file_tree"]}
{"id": "C33", "title": "Sector scan terminates and never panics on untrusted images", "statement": "Scanning a directory returns after a number of entries bounded by its size, without panicking.", "quantifier": "all images", "why_tests_cant": "Needs an adversarial image.", "anchors": ["xdvdfs-core/src/read.rs: DirentScanIter::next_entry"]}
{"id": "C34", "title": "Buffered copy is exact", "statement": "The default copier copies exactly size bytes from the source offset to the destination offset, whatever the size relative to its 1 MiB buffer, changes nothing else in the destination, and returns size.", "quantifier": "all devices, offsets and sizes", "why_tests_cant": "Chunk boundary cases.", "anchors": ["xdvdfs-core/src/write/fs/xdvdfs.rs: RWCopier::copy"]}
{"id": "C35", "title": "Memory block devices are bounds-safe", "statement": "Writes to an in-memory device change exactly the addressed range or fail without change; reads return exactly the addressed range or fail with OutOfBounds.", "quantifier": "all buffers, offsets, lengths", "why_tests_cant": "All offsets near the end.", "anchors": ["xdvdfs-core/src/blockdev.rs: impl BlockDeviceRead for [u8], BlockDeviceWrite for Box<[u8]> and [u8]"]}
{"id": "C36", "title": "Copying host files into memory", "statement": "StdFilesystem::copy_file_in into an in-memory destination stores the file bytes at the output offset and zeroes the rest of the requested range, for any output offset.", "quantifier": "all files, offsets and sizes", "why_tests_cant": "All offsets.", "anchors": ["xdvdfs-core/src/write/fs/stdfs.rs: FilesystemCopier<[u8]>, FilesystemCopier<Box<[u8]>>"]}
{"id": "C37", "title": "Compression sees the packed image", "statement": "Packing onto the sector-linear device never hits the unimplemented overwrite, and reading all its sectors yields byte for byte the image that packing to a file produces.", "quantifier": "every source tree", "why_tests_cant": "All trees.", "anchors": ["xdvdfs-core/src/write/fs/sector_linear.rs", "xdvdfs-core/src/write/img.rs"]}
{"id": "C38", "title": "Compressing from an existing image works", "statement": "Every sector of a sector-linear device packed from an XDVDFS image can be read.", "quantifier": "every source image", "why_tests_cant": "Depends on file sizes modulo the sector size.", "anchors": ["xdvdfs-core/src/write/fs/sector_linear.rs: CisoSectorInput::read_sector", "xdvdfs-core/src/write/fs/xdvdfs.rs: copy_file_in"]}
{"id": "C39", "title": "Path map behaves as a map", "statement": "The path trie used by the overlay and repacking behaves as a map from paths to records: lookups return the first record inserted for a path, unrelated insertions do not disturb it, and iteration lists each entry of a directory exactly once.", "quantifier": "every insertion history", "why_tests_cant": "All histories.", "anchors": ["xdvdfs-core/src/write/fs/mod.rs: PathPrefixTree"]}
{"id": "C40", "title": "Repacking preserves contents", "statement": "Packing from an image produced by packing, whose names have only characters below U+0100 (see C41), gives an image with the same paths, kinds, sizes and contents; the only error that can occur is TooManyDirectoryEntries, when a table built in the other order gets too large. Packing from any image whose sector scans show a tree is packing that tree.", "quantifier": "every source tree with Latin-1 names", "why_tests_cant": "All trees.", "anchors": ["xdvdfs-core/src/write/fs/xdvdfs.rs: XDVDFSFilesystem", "xdvdfs-core/src/write/img.rs"]}
{"id": "C41", "title": "Repacking accepts every name packing accepts", "statement": "Listing an image through XDVDFSFilesystem does not panic for any name that packing can store.", "quantifier": "all names", "why_tests_cant": "All names.", "anchors": ["xdvdfs-core/src/write/fs/mod.rs: PathPrefixTree::insert_tail", "xdvdfs-core/src/write/fs/xdvdfs.rs: read_dir"]}
{"id": "C42", "title": "Rewrite template parsing", "statement": "A rewrite template is accepted exactly when every opening brace is closed and only digits (or further opening braces) stand in between; the reported indices are the numbers written between the braces, in order.", "quantifier": "all template strings", "why_tests_cant": "All strings.", "anchors": ["xdvdfs-core/src/write/fs/remap.rs: find_match_indices"]}
{"id": "C43", "title": "Overlay maps each listed file to its host file", "statement": "In a remap overlay every listed path has a host file or is a synthesized directory, a file listed at an image path is copied from the first host path that was rewritten to it, and nothing is listed that no rule produced.", "quantifier": "every host tree, rule list and glob matcher", "why_tests_cant": "All trees and rules.", "anchors": ["xdvdfs-core/src/write/fs/remap.rs: RemapOverlayFilesystem"]}
{"id": "C44", "title": "Overlay loses no mapped file", "statement": "Every host file that a rule maps to an image path of its own is listed by the overlay.", "quantifier": "every host tree and rule list", "why_tests_cant": "Needs colliding rewrites.", "anchors": ["xdvdfs-core/src/write/fs/remap.rs: RemapOverlayFilesystem::new, read_dir"]}
{"id": "C45", "title": "Checksum depends only on contents", "statement": "The bytes hashed for an image are determined by its set of (path, kind, contents), independent of the tree shape, sector placement and directory order.", "quantifier": "all pairs of images with equal contents", "why_tests_cant": "All layouts of equal contents.", "anchors": ["xdvdfs-core/src/checksum.rs: checksum"]}
{"id": "C46", "title": "Checksum input separates different contents", "statement": "Two images with different contents feed different byte streams to the hash.", "quantifier": "all pairs of images", "why_tests_cant": "Needs a crafted collision of the framing.", "anchors": ["xdvdfs-core/src/checksum.rs: checksum"]}
{"id": "C47", "title": "Unpacking stays inside the destination", "statement": "Unpacking an image writes only below the destination directory.", "quantifier": "all images", "why_tests_cant": "Needs an adversarial image.", "anchors": ["xdvdfs-cli/src/cmd_unpack.rs: copyout_directory"]}
{"id": "C48", "title": "Unpacking a packed tree restores it", "statement": "Unpacking a packed image into an empty directory creates exactly the source files with their bytes and exactly the source directories.", "quantifier": "every source tree", "why_tests_cant": "All trees.", "anchors": ["xdvdfs-cli/src/cmd_unpack.rs: copyout_directory, cmd_unpack"]}
{"id": "C49", "title": "Truncated images are reported when unpacking", "statement": "Unpacking an image from which file data is missing reports an error.", "quantifier": "all truncated images", "why_tests_cant": "All truncation points.", "anchors": ["xdvdfs-cli/src/cmd_unpack.rs: copyout_directory", "xdvdfs-core/src/write/fs/xdvdfs.rs: StdIOCopier"]}
{"id": "C50", "title": "extract-xiso -c accepts several sources", "statement": "-c DIR [FILE] may be repeated; the sources are packed in order, each to its own file.", "quantifier": "all argument lists", "why_tests_cant": "All argument lists.", "anchors": ["xdvdfs-cli/src/exiso_compat.rs: exiso_create"]}
{"id": "C51", "title": "extract-xiso -r never destroys the only copy", "statement": "At every point of a rewrite, and after any failure, the original image bytes are still in a file, unless the rewrite finished and deletion was requested.", "quantifier": "every host file system, argument list, failure and crash point", "why_tests_cant": "Every crash point.", "anchors": ["xdvdfs-cli/src/exiso_compat.rs: exiso_repack"]}
{"id": "C52", "title": "FUSE inode numbers are stable and unique", "statement": "Once handed out an inode number always denotes the same entry, different entries have different numbers, and no entry gets number 1 (the root).", "quantifier": "every history of lookups and listings", "why_tests_cant": "All histories.", "anchors": ["xdvdfs-fsd/src/img_fs.rs: get_or_assign_inode, lookup_dirent_by_inode"]}
{"id": "C53", "title": "FUSE directory listing pages are exact", "statement": "Reading a directory in pages of any sizes, resuming from the last returned offset, returns every entry exactly once and in order.", "quantifier": "every directory and every sequence of page sizes with room for at least two records", "why_tests_cant": "All page splits.", "anchors": ["xdvdfs-fsd/src/img_fs.rs: readdir"]}
{"id": "C54", "title": "FUSE lookup and readdir agree on inode numbers", "statement": "The inode number listed for a name is the one lookup returns for it.", "quantifier": "every image and name", "why_tests_cant": "All images.", "anchors": ["xdvdfs-fsd/src/img_fs.rs: lookup, readdir", "xdvdfs-core/src/read.rs: next_entry, read_dirent"]}
{"id": "C55", "title": "Buffered output reports the right length", "statement": "When packing asks a buffered file for its length it gets the length of everything written so far, and the final file equals the one written unbuffered.", "quantifier": "every source tree and buffer capacity", "why_tests_cant": "Depends on what is still buffered.", "anchors": ["xdvdfs-core/src/blockdev.rs: impl BlockDeviceWrite for BufWriter<File>", "xdvdfs-core/src/write/img.rs"]}
{"id": "C56", "title": "String order is path order", "statement": "Comparing strings as UTF-8 bytes and as code points gives the same order, so the order in which directories are written and checksummed is by code point.", "quantifier": "all strings", "why_tests_cant": "All strings.", "anchors": ["xdvdfs-core/src/write/fs/mod.rs: PathVec (derived Ord)", "xdvdfs-core/src/checksum.rs"]}
{"id": "C57", "title": "Packing into a fixed memory buffer", "statement": "Packing into an in-memory buffer large enough for the image succeeds with the same contents as packing to a file.", "quantifier": "every source tree and buffer length", "why_tests_cant": "All lengths.", "anchors": ["xdvdfs-core/src/blockdev.rs: Box<[u8]>", "xdvdfs-core/src/write/img.rs: create_xdvdfs_image"]}
{"id": "C58", "title": "Entry information is printed correctly", "statement": "The info command prints the byte offsets of the children of an entry.", "quantifier": "all entries", "why_tests_cant": "Fails only for directories above 64 KiB.", "anchors": ["xdvdfs-cli/src/cmd_info.rs: print_dirent"]}
{"id": "C59", "title": "A successful pack left a complete image", "statement": "When the pack command reports success although the output device fails at some point, the output is a complete image of the source.", "quantifier": "every source tree and every point of failure", "why_tests_cant": "Needs a device failing at exactly the last buffered write.", "anchors": ["xdvdfs-cli/src/cmd_pack.rs: cmd_pack_path", "xdvdfs-core/src/blockdev.rs: impl BlockDeviceWrite for BufWriter<File>"]}
{"id": "C60", "title": "Placeholders are replaced by their captures", "statement": "Building an overlay replaces every placeholder {n} of the rewrite template by capture n of the glob and leaves all other text alone.", "quantifier": "all templates and captures", "why_tests_cant": "Needs captures that themselves look like placeholders.", "anchors": ["xdvdfs-core/src/write/fs/remap.rs: find_match_indices, RemapOverlayFilesystem::new"]}
{"id": "C61", "title": "The whole-match template keeps paths", "statement": "A rule with the rewrite template {0} maps every matched path to itself.", "quantifier": "all paths", "why_tests_cant": "Fails only for names with leading dots.", "anchors": ["xdvdfs-core/src/write/fs/remap.rs: RemapOverlayFilesystem::new"]}
{"id": "C62", "title": "Which rule decides about a path", "statement": "A path is mapped by the first matching positive rule after the last matching negated rule, applied to the longest prefix of the path that any rule matches; the rest of the path is appended. Without such a rule it is not mapped. The outcome is unique.", "quantifier": "all rule lists and paths", "why_tests_cant": "All interleavings of positive and negated rules.", "anchors": ["xdvdfs-core/src/write/fs/remap.rs: RemapOverlayFilesystem::new"]}
{"id": "C63", "title": "Packing an overlay", "statement": "Packing a remap overlay over a host directory gives an image from which exactly the mapped files can be read, at their image paths and with the bytes of their host files.", "quantifier": "every host tree, rule list and glob matcher", "why_tests_cant": "All rule lists and trees.", "anchors": ["xdvdfs-core/src/write/fs/remap.rs: RemapOverlayFilesystem", "xdvdfs-core/src/write/img.rs: create_xdvdfs_image"]}
{"id": "C64", "title": "Building an overlay reports errors", "statement": "Building an overlay over a readable host directory always ends; it fails only for an invalid pattern or template, and never panics.", "quantifier": "every host tree, rule list and glob matcher", "why_tests_cant": "Needs names outside Latin-1.", "anchors": ["xdvdfs-core/src/write/fs/remap.rs: RemapOverlayFilesystem::new", "xdvdfs-core/src/write/fs/mod.rs: PathPrefixTree"]}
{"id": "C65", "title": "Overlay dump reports the mapping", "statement": "The dump of an overlay lists exactly the pairs of host path and image path that are visible in the overlay, without the synthesized directories, and never panics.", "quantifier": "every host tree and rule list", "why_tests_cant": "All trees.", "anchors": ["xdvdfs-core/src/write/fs/remap.rs: RemapOverlayFilesystem::dump"]}
{"id": "C66", "title": "ls prints the names of a directory", "statement": "The ls command prints the names of the selected directory, each exactly once, when walking any well-formed image and when scanning a packed image.", "quantifier": "every image, in every disc layout, and every path spelling", "why_tests_cant": "All trees and images of other tools.", "anchors": ["xdvdfs-cli/src/cmd_read.rs: cmd_ls"]}
{"id": "C67", "title": "tree prints every entry and the totals", "statement": "The tree command prints one line per entry with its path and size, and a last line with the number of files and the sum of their sizes.", "quantifier": "every well-formed image", "why_tests_cant": "All trees.", "anchors": ["xdvdfs-cli/src/cmd_read.rs: cmd_tree"]}
{"id": "C68", "title": "md5 prints the checksum of every file", "statement": "The md5 command prints, for the file given, for every file below the directory given or for every file of the image, its MD5 checksum and a path leading to it, and nothing else.", "quantifier": "every packed image and path", "why_tests_cant": "All trees.", "anchors": ["xdvdfs-cli/src/cmd_md5.rs: md5_file_tree, md5_from_file_path"]}
{"id": "C69", "title": "checksum prints one line per image", "statement": "The checksum command prints for every image, in the order given, a checksum that depends only on the tree in the image, and its name.", "quantifier": "every list of well-formed images", "why_tests_cant": "All images of the same tree.", "anchors": ["xdvdfs-cli/src/cmd_read.rs: cmd_checksum, checksum_single", "xdvdfs-core/src/checksum.rs: checksum"]}
{"id": "C70", "title": "copy-out copies exactly what is selected", "statement": "Copying a file out writes exactly its bytes to the destination and changes nothing else; copying a directory out to a free place creates exactly the tree below it there and changes nothing else but the directories leading to the destination.", "quantifier": "every well-formed image, path and host file system", "why_tests_cant": "All trees and paths.", "anchors": ["xdvdfs-cli/src/cmd_unpack.rs: cmd_copyout, copyout_directory"]}
{"id": "C71", "title": "extract-xiso -r -d writes into the directory", "statement": "Rewriting an image with -d DIR leaves the new image in the directory DIR, under the name of the original.", "quantifier": "every host file system, image and directory", "why_tests_cant": "All paths.", "anchors": ["xdvdfs-cli/src/exiso_compat.rs: exiso_repack"]}
{"id": "C72", "title": "pack leaves its source alone", "statement": "Packing changes at most one file, the output; it never changes the image or anything in the directory that is being packed, whether or not it succeeds.", "quantifier": "every host file system, working directory, source and output path, and every behaviour of packing itself", "why_tests_cant": "All ways of spelling two paths to the same place.", "anchors": ["xdvdfs-cli/src/cmd_pack.rs: cmd_pack, cmd_pack_path, get_default_image_path", "xdvdfs-cli/src/img.rs: absolute_path, with_extension"]}
{"id": "C73", "title": "extract-xiso -r preserves contents", "statement": "Rewriting an image that was produced by packing, with names below U+0100, moves its bytes to the .old name and puts an image of the same tree in its place, changing nothing else; the only error that can occur is a directory table that becomes too large.", "quantifier": "every packed image and host file system in which no call fails", "why_tests_cant": "All trees.", "anchors": ["xdvdfs-cli/src/exiso_compat.rs: exiso_repack", "xdvdfs-cli/src/cmd_pack.rs: cmd_pack_path"]}
{"id": "C74", "title": "The mounted tree is the tree of the image", "statement": "On a mounted image, looking up the components of a path one after the other leads to the entry at that path: its kind and size are reported, and reading a range inside a file returns its bytes.", "quantifier": "every well-formed image, path and range, and every history of other requests", "why_tests_cant": "All histories of requests.", "anchors": ["xdvdfs-fsd/src/img_fs.rs: lookup, getattr, read, get_or_assign_inode"]}
{"id": "C75", "title": "FUSE reports missing names as missing", "statement": "Looking up a name that is not in the directory is answered by ENOENT.", "quantifier": "every well-formed image and name", "why_tests_cant": "All names.", "anchors": ["xdvdfs-fsd/src/img_fs.rs: lookup"]}
{"id": "C76", "title": "FUSE reads stop at the end of the file", "statement": "A read that goes beyond the end of a file returns the bytes up to the end; a read at or beyond the end returns nothing.", "quantifier": "every well-formed image, file and range", "why_tests_cant": "All ranges.", "anchors": ["xdvdfs-fsd/src/img_fs.rs: read", "xdvdfs-core/src/layout.rs: read_data_offset"]}
{"id": "C77", "title": "pack of a host directory", "statement": "Packing a directory of the host succeeds exactly if its tree is representable, and then leaves a single new or replaced file, the output, that holds an image of that tree; without an output path it is the directory's name with the extension xiso.iso, beside it.", "quantifier": "every host file system with readable files, working directory and path, and every order in which the host lists directories", "why_tests_cant": "All trees, listings and path spellings.", "anchors": ["xdvdfs-cli/src/cmd_pack.rs: cmd_pack, cmd_pack_path, get_default_image_path", "xdvdfs-core/src/write/fs/stdfs.rs: StdFilesystem"]}
{"id": "C78", "title": "pack and unpack are inverse", "statement": "Packing a host directory and unpacking the image elsewhere gives an exact copy of the directory and leaves the directory as it was.", "quantifier": "every host directory that is representable with names below U+0100 and without slashes", "why_tests_cant": "All trees.", "anchors": ["xdvdfs-cli/src/cmd_pack.rs: cmd_pack", "xdvdfs-cli/src/cmd_unpack.rs: cmd_unpack"]}
{"id": "C79", "title": "-m gives map rules", "statement": "Every map rule HOST = IMAGE of a spec can be given as -m HOST:IMAGE, and every accepted -m argument means the rule it spells; an argument without a colon is refused unless it excludes.", "quantifier": "every argument", "why_tests_cant": "All texts.", "anchors": ["xdvdfs-cli/src/cmd_build_image.rs: cmd_build_image (map_rules loop), cmd_image_spec, deserialize_overlay_config"]}
{"id": "C80", "title": "A spec and the options it was made from are equivalent", "statement": "build-image with options -m and -O does the same as build-image with the spec that image-spec from writes for these options.", "quantifier": "every list of rules, output, source and image path and host file system", "why_tests_cant": "All combinations.", "anchors": ["xdvdfs-cli/src/cmd_build_image.rs: cmd_build_image, cmd_image_spec"]}
{"id": "C81", "title": "Where build-image puts the image", "statement": "The image goes to the image path if there is one, otherwise to the output field relative to the source directory, otherwise beside the source directory with the extension xiso.iso; a spec file can be named instead of its directory.", "quantifier": "every host file system, working directory and spelling of the paths", "why_tests_cant": "All path spellings.", "anchors": ["xdvdfs-cli/src/cmd_build_image.rs: cmd_build_image", "xdvdfs-cli/src/img.rs: with_extension"]}
{"id": "C82", "title": "build-image changes at most one file", "statement": "build-image changes at most one file and never a directory; a dry run changes nothing, and neither does a run whose spec, rules or source are refused.", "quantifier": "every host file system, arguments and behaviour of the packer", "why_tests_cant": "All failures.", "anchors": ["xdvdfs-cli/src/cmd_build_image.rs: cmd_build_image"]}
{"id": "C83", "title": "build-image end to end", "statement": "A successful run leaves at the image path an image of the tree that the map rules make of the source directory, and changes nothing else.", "quantifier": "every host directory, rules, glob matcher and listing order; the image outside of the source or a new file", "why_tests_cant": "All trees and rules.", "anchors": ["xdvdfs-cli/src/cmd_build_image.rs: cmd_build_image", "xdvdfs-core/src/write/fs/remap.rs: RemapOverlayFilesystem", "xdvdfs-core/src/write/fs/stdfs.rs"]}
{"id": "C84", "title": "build-image leaves its source alone", "statement": "build-image never changes a file of the source directory that existed before.", "quantifier": "every host file system and arguments", "why_tests_cant": "All paths.", "anchors": ["xdvdfs-cli/src/cmd_build_image.rs: cmd_build_image"]}
{"id": "C85", "title": "The desktop application reports failures", "statement": "A command of the desktop application that does not do its work is answered with an error, so that the page does not show success.", "quantifier": "every host file system, source, destination and failure", "why_tests_cant": "All failures.", "anchors": ["xdvdfs-desktop/src/pack.rs: pack_image", "xdvdfs-desktop/src/unpack.rs: unpack_image", "xdvdfs-desktop/src/compress.rs: compress_image", "xdvdfs-web/src/ops/tauri.rs"]}
{"id": "C86", "title": "The desktop application packs directories", "statement": "Packing a host directory succeeds, writes an image of its tree to the chosen file and changes nothing else.", "quantifier": "every representable host directory, listing order and output outside of the directory", "why_tests_cant": "All trees.", "anchors": ["xdvdfs-desktop/src/pack.rs: pack_image"]}
{"id": "C87", "title": "The desktop application leaves the source of packing alone", "statement": "Packing changes at most the chosen output file, and never the source.", "quantifier": "every host file system, source, destination and behaviour of the packer", "why_tests_cant": "All paths and failures.", "anchors": ["xdvdfs-desktop/src/pack.rs: pack_image"]}
{"id": "C88", "title": "The desktop application unpacks like the command", "statement": "Unpacking in the desktop application has the same effect on the host as xdvdfs unpack; in particular it restores the tree in the image.", "quantifier": "every image and host file system", "why_tests_cant": "All images.", "anchors": ["xdvdfs-desktop/src/unpack.rs: unpack_image", "xdvdfs-cli/src/cmd_unpack.rs: cmd_unpack"]}
{"id": "C89", "title": "The packing page never breaks", "statement": "Whatever the user chooses and whatever the running job reports, the page for packing does not panic, runs at most one job, and disables its buttons while a job runs.", "quantifier": "every history of user actions that the page offers and of messages from jobs", "why_tests_cant": "All histories.", "anchors": ["xdvdfs-web/src/packing.rs: ImageBuilderWorkflow (update, view, reset_state)"]}
{"id": "C90", "title": "The unpacking page never breaks", "statement": "Whatever the user chooses and whatever the running job reports, the page for unpacking does not panic and runs at most one job.", "quantifier": "every history of user actions that the page offers and of messages from jobs", "why_tests_cant": "All histories.", "anchors": ["xdvdfs-web/src/unpacking.rs: ImageUnpackingWorkflow (update, view, reset_state)"]}
{"id": "C91", "title": "The compression page never breaks", "statement": "Whatever the user chooses and whatever the running job reports, the page for compressing does not panic and runs at most one job.", "quantifier": "every history of user actions that the page offers and of messages from jobs", "why_tests_cant": "All histories.", "anchors": ["xdvdfs-web/src/compress.rs: ImageBuilderWorkflow (update, view, reset_state)"]}
{"id": "C92", "title": "The progress of packing is complete", "statement": "When packing has succeeded, the page shows as many packed files as files to pack, namely one for every entry of the source tree.", "quantifier": "every source tree, file system presenting it and previous state of the page", "why_tests_cant": "All trees.", "anchors": ["xdvdfs-web/src/packing.rs: update", "xdvdfs-core/src/write/img.rs: create_xdvdfs_image"]}
{"id": "C93", "title": "Packing in the browser gives the image of the command line tool", "statement": "Packing a directory or an image in the browser gives, up to zeros at the end, the image that xdvdfs pack gives for the same entries in the order of their names (for an image, in its order), and everything can be read back from it; when it fails, the output file keeps its bytes, and without a lack of space it fails only for trees that cannot be represented.", "quantifier": "every source tree, listing order, storage quota and previous contents of the output file", "why_tests_cant": "All trees and quotas.", "anchors": ["xdvdfs-web/src/fs/mod.rs: FSWriteWrapper, FSTree, WebFileSystem", "xdvdfs-web/src/ops/browser.rs: pack_image, pack_image_impl", "xdvdfs-core/src/write/img.rs: create_xdvdfs_image"]}
{"id": "C94", "title": "Packing in the browser does not depend on the listing order", "statement": "Two listings of the same directory tree, in whatever order, are packed to the same bytes.", "quantifier": "every pair of trees that differ in the order of entries only", "why_tests_cant": "All permutations at every level.", "anchors": ["xdvdfs-web/src/fs/mod.rs: FSTree::populate, WebFileSystem"]}
{"id": "C95", "title": "Compressing in the browser reads the packed image", "statement": "Every sector that the compressor asks for in the browser is that sector of the image which packing the same entries in the order of their names gives, and the sizes agree.", "quantifier": "every source tree and sector number", "why_tests_cant": "All trees and sectors.", "anchors": ["xdvdfs-web/src/fs/mod.rs: FilesystemCopier<[u8]>", "xdvdfs-web/src/ops/browser.rs: compress_image", "xdvdfs-core/src/write/fs/sector_linear.rs"]}
{"id": "C96", "title": "Unpacking in the browser restores the tree", "statement": "Unpacking an image into a directory in the browser succeeds only if afterwards the directory holds the tree of the image, with exact contents, and everything else as before.", "quantifier": "every image and previous contents of the directory", "why_tests_cant": "All images.", "anchors": ["xdvdfs-web/src/ops/browser.rs: unpack_image", "xdvdfs-web/src/fs/util.rs: create_directory, create_file"]}
{"id": "C97", "title": "Unpacking in the browser stays in the chosen directory", "statement": "Whatever bytes are given as an image and whichever operation fails, unpacking in the browser changes only entries below the chosen directory, and no existing directory or file disappears.", "quantifier": "every file, destination, rule for names and point of failure", "why_tests_cant": "Untrusted input, all bytes.", "anchors": ["xdvdfs-web/src/ops/browser.rs: unpack_image", "xdvdfs-web/src/fs/util.rs: create_directory, create_file"]}
{"id": "C98", "title": "The progress of unpacking is complete", "statement": "When unpacking in the browser has succeeded, as many entries have been reported as were announced, namely the number of entries in the image.", "quantifier": "every image", "why_tests_cant": "All images.", "anchors": ["xdvdfs-web/src/ops/browser.rs: unpack_image"]}
{"id": "C99", "title": "Failures of the host are not hidden", "statement": "A command that reports success has done exactly what it does on a host where no call fails; in particular, when unpack reports success the tree has been restored completely.", "quantifier": "every command line, host file system, image and point at which calls start to fail", "why_tests_cant": "All points of failure, including partial writes.", "anchors": ["xdvdfs-cli/src/cmd_unpack.rs: cmd_unpack, cmd_copyout", "xdvdfs-cli/src/cmd_pack.rs: cmd_pack", "xdvdfs-cli/src/exiso_compat.rs", "xdvdfs-cli/src/cmd_build_image.rs: cmd_build_image", "xdvdfs-web/src/ops/browser.rs: unpack_image"]}
{"id": "C100", "title": "Packing from an image file", "statement": "xdvdfs pack on an image file, whose partition is at any of the supported places, writes an image of the same tree to the output if that is representable and fails otherwise; nothing but the output changes.", "quantifier": "every image file whose sector scans show a tree, host file system and output other than the source", "why_tests_cant": "All images and trees.", "anchors": ["xdvdfs-cli/src/cmd_pack.rs: cmd_pack, cmd_pack_path", "xdvdfs-core/src/write/fs/xdvdfs.rs"]}
{"id": "C101", "title": "The mounted image is read-only", "statement": "A request to open a file or directory of a mounted image is refused exactly if it asks for write access, creation or truncation.", "quantifier": "every set of flags", "why_tests_cant": "All flags.", "anchors": ["xdvdfs-fsd/src/img_fs.rs: open, opendir"]}
{"id": "C102", "title": "info prints the volume descriptor", "statement": "Without a path, info prints the creation time and the position and size of the root table as stored in the volume descriptor, and it fails exactly if no supported place holds a descriptor.", "quantifier": "every file", "why_tests_cant": "All bytes.", "anchors": ["xdvdfs-cli/src/cmd_info.rs: cmd_info, print_volume"]}
{"id": "C103", "title": "Unpacking leaves the image alone", "statement": "Unpacking never changes the image it unpacks, and every file gets the bytes that the image held before; in particular an image is restored completely into a free place.", "quantifier": "every image file on the host, destination and point of failure", "why_tests_cant": "All relative positions of the image and the destination.", "anchors": ["xdvdfs-cli/src/cmd_unpack.rs: cmd_unpack, copyout_directory"]}
{"id": "C104", "title": "extract-xiso -x extracts every image", "statement": "-x with several images extracts each of them completely into the directory named after it in the working directory, and changes nothing else.", "quantifier": "every list of images and host file system in which these directories do not exist yet", "why_tests_cant": "All lists of images.", "anchors": ["xdvdfs-cli/src/exiso_compat.rs: exiso_extract", "xdvdfs-cli/src/cmd_unpack.rs: cmd_unpack"]}
{"id": "C105", "title": "extract-xiso -l lists every image", "statement": "-l prints for every image, in the order given, a line for each entry with path and size, and the totals.", "quantifier": "every list of images", "why_tests_cant": "All lists of images.", "anchors": ["xdvdfs-cli/src/exiso_compat.rs: exiso_list", "xdvdfs-cli/src/cmd_read.rs: cmd_tree"]}
{"id": "C106", "title": "compress keeps its output out of the source", "statement": "compress refuses an output that is the source or lies inside the source directory, before anything is written.", "quantifier": "every spelling of the two paths, working directory and host file system", "why_tests_cant": "All spellings.", "anchors": ["xdvdfs-cli/src/cmd_compress.rs: cmd_compress", "xdvdfs-cli/src/img.rs: absolute_path"]}
{"id": "C107", "title": "compress does not panic on its arguments", "statement": "For every existing source and with or without an output, compress does not panic before compressing; without an output, the image is named after the source.", "quantifier": "every spelling of the source, working directory and host file system", "why_tests_cant": "All paths.", "anchors": ["xdvdfs-cli/src/cmd_compress.rs: cmd_compress, get_default_image_path", "xdvdfs-cli/src/img.rs: with_extension"]}
{"id": "C108", "title": "All parts of a compressed image are opened", "statement": "Given NAME.1.cso, the files NAME.1.cso, NAME.2.cso, ... are opened in this order up to the first number that does not exist; it is an error if there is none.", "quantifier": "every name and host file system", "why_tests_cant": "All numbers of parts.", "anchors": ["xdvdfs-cli/src/img.rs: open_image"]}
{"id": "C109", "title": "A host directory is presented as it is", "statement": "The file system over a host directory lists exactly the entries of a directory with their kinds and the lengths of files and fails for anything else; copying takes the requested bytes of a file, as many as there are, to the requested place and changes no other byte.", "quantifier": "every host file system, path, offset and size", "why_tests_cant": "All offsets and sizes; packing only ever copies whole files.", "anchors": ["xdvdfs-core/src/write/fs/stdfs.rs: read_dir, copy_file_in"]}
{"id": "C110", "title": "Specs that cannot be used are refused", "statement": "build-image with a spec that is no TOML or that has a rule which is not a string fails without changing anything.", "quantifier": "every spec, set of arguments and host file system", "why_tests_cant": "All specs and arguments.", "anchors": ["xdvdfs-cli/src/cmd_build_image.rs: cmd_build_image, deserialize_overlay_config"]}
{"id": "C111", "title": "The progress of compression is shown correctly", "statement": "While sectors are compressed the page shows how many are done (the desktop application in steps of 739), the percentage never decreases nor exceeds 100, and it ends at 100.", "quantifier": "every number of sectors and point in time", "why_tests_cant": "All numbers of sectors.", "anchors": ["xdvdfs-desktop/src/compress.rs: compress_image", "xdvdfs-web/src/ops/browser.rs: compress_image_impl", "xdvdfs-web/src/compress.rs: update, view"]}
{"id": "C112", "title": "Mount options are passed on as given", "statement": "The options of all -o arguments, separated by commas, are passed to the mount in their order; the source path and the type xdvdfs are added unless given; fork and nofork decide by the last one whether the program goes to the background; an unknown option is an error.", "quantifier": "every list of option arguments and source path", "why_tests_cant": "All lists of options.", "anchors": ["xdvdfs-fsd/src/main.rs: convert_fuse_mount_opts"]}
{"id": "C113", "title": "The exit status of mounting tells the truth", "statement": "The mount program exits with status 0 exactly if the image has been mounted.", "quantifier": "every file, list of options and behaviour of the system", "why_tests_cant": "All files and options; failure of the system.", "anchors": ["xdvdfs-fsd/src/main.rs: mount_image_file, run_mount_program, main", "xdvdfs-fsd/src/daemonize.rs: daemonize, Daemonize"]}
{"id": "C114", "title": "The mount program does not panic on its arguments", "statement": "For every source, mount point and list of options the mount program succeeds or ends with an error, but does not panic.", "quantifier": "every command line and host file system", "why_tests_cant": "All kinds of sources.", "anchors": ["xdvdfs-fsd/src/main.rs: run_mount_program, mount_pack_overlay"]}
{"id": "C115", "title": "Attributes of mounted entries are usable", "statement": "Every entry of a mounted image is read-only, its block count covers its size in the unit of POSIX (512 bytes), and directories can be searched by the user who mounted it under all supported options.", "quantifier": "every image, sequence of requests and entry", "why_tests_cant": "All sizes.", "anchors": ["xdvdfs-fsd/src/img_fs.rs: new_file_attr", "xdvdfs-fsd/src/fs_wrapper.rs", "xdvdfs-fsd/src/main.rs: convert_fuse_mount_opts"]}
{"id": "C116", "title": "Unpacking does not need duplicated handles", "statement": "If the handle of the image cannot be duplicated for some files, so that they are copied the slow way, unpacking a complete image has exactly the same result; a success never means less than without the slow way, and if all files are copied the slow way, missing data is reported.", "quantifier": "every image, also untrusted, host file system, failure, and choice of the files copied the slow way", "why_tests_cant": "Duplicating a handle does not fail in tests.", "anchors": ["xdvdfs-cli/src/cmd_unpack.rs: copyout_directory, cmd_unpack, cmd_copyout"]}
{"id": "C117", "title": "copy-out leaves the image alone", "statement": "copy-out writes the selected file or directory and changes nothing else; in particular the image remains as it is.", "quantifier": "every image, selection, destination, host file system and failure", "why_tests_cant": "All destinations, also the image itself.", "anchors": ["xdvdfs-cli/src/cmd_unpack.rs: cmd_copyout"]}
{"id": "C118", "title": "Endless traversals are exactly the circular ones", "statement": "A lookup returns exactly if its own search never comes back to an entry; listing a table returns if no entry is its own descendant, listing a tree if moreover no directory contains itself. A listing that succeeds met no cycle, and shows exactly the entries that can be reached from the first one.", "quantifier": "every device, also untrusted, every table and path", "why_tests_cant": "All graphs of pointers.", "anchors": ["xdvdfs-core/src/read.rs: find_dirent, walk_path, walk_dirent_tree, file_tree"]}
{"id": "C119", "title": "The sector scan lists consecutive records", "statement": "Scanning a table lists, sector by sector, the records that lie one behind the other from the beginning of the sector up to the first blank record or the end of the sector; it fails at the first sector that cannot be read and panics exactly at a record whose name crosses the end of its sector.", "quantifier": "every device, also untrusted, and table", "why_tests_cant": "All contents of a sector.", "anchors": ["xdvdfs-core/src/read.rs: scan_dirent_tree, DirentScanIter"]}
{"id": "C120", "title": "Repacking keeps everything, whoever wrote the image", "statement": "Packing from a well-formed image of any origin gives an image with exactly the files that can be reached in the source.", "quantifier": "every well-formed image with names below U+0100", "why_tests_cant": "Images of other programs, with gaps or old records in their tables.", "anchors": ["xdvdfs-core/src/write/fs/xdvdfs.rs: read_dir", "xdvdfs-core/src/read.rs: scan_dirent_tree"]}
{"id": "C121", "title": "A mounted directory lists what can be looked up", "statement": "Reading a directory of a mounted well-formed image of any origin lists exactly the names that lookups find in it.", "quantifier": "every well-formed image, directory and sequence of requests", "why_tests_cant": "Images of other programs, with gaps or old records in their tables.", "anchors": ["xdvdfs-fsd/src/img_fs.rs: readdir, lookup", "xdvdfs-core/src/read.rs: scan_dirent_tree"]}
{"id": "C122", "title": "Read errors are never taken for data", "statement": "If some reads of a device fail, looking up a path, listing a directory or a tree, reading data and the checksum give what they give without the failures, or report an I/O error; also results such as 'does not exist' are right. Reading the volume gives the right volume or an invalid volume. A truncated file is such a device.", "quantifier": "all devices, also untrusted, and all sets of failing reads", "why_tests_cant": "Every possible pattern of failing reads.", "anchors": ["xdvdfs-core/src/read.rs", "xdvdfs-core/src/layout.rs: read_data, read_data_all, read_data_offset", "xdvdfs-core/src/checksum.rs: checksum"]}
{"id": "C123", "title": "Truncated images are never read as something else", "statement": "For a truncated image file, ls, tree, info, md5 and checksum print what they print for the whole file, or the first lines of that followed by an error.", "quantifier": "all files and lengths", "why_tests_cant": "All truncation points; discs with more than one partition.", "anchors": ["xdvdfs-core/src/blockdev.rs: OffsetWrapper::new", "xdvdfs-cli/src/cmd_read.rs", "xdvdfs-cli/src/cmd_md5.rs", "xdvdfs-cli/src/cmd_info.rs"]}
{"id": "C124", "title": "Data after an image does not matter", "statement": "If a command that reads an image does not end with an I/O error, it prints the same with any data appended to the file.", "quantifier": "all files with a partition at the start, or long enough for all places of a partition", "why_tests_cant": "All images and appended data.", "anchors": ["xdvdfs-core/src/blockdev.rs: OffsetWrapper::new", "xdvdfs-cli/src/cmd_read.rs", "xdvdfs-cli/src/cmd_md5.rs", "xdvdfs-cli/src/cmd_info.rs"]}
{"id": "C125", "title": "Packing from a failing or truncated source is reported", "statement": "If packing succeeds from a source some of whose reads fail, the image is the one that is packed without the failures. A truncated image file is such a source.", "quantifier": "all sources, images, output devices and sets of failing reads", "why_tests_cant": "All truncation points and failures.", "anchors": ["xdvdfs-core/src/write/img.rs: create_xdvdfs_image", "xdvdfs-core/src/write/fs/xdvdfs.rs: RWCopier, StdIOCopier", "xdvdfs-cli/src/cmd_pack.rs"]}
{"id": "C126", "title": "The place of the partition does not matter", "statement": "At whichever supported place of a file the partition is found, ls, tree, info, md5 and checksum print what they print for a file with just the partition.", "quantifier": "all partitions and all data around them", "why_tests_cant": "Images of several gigabytes.", "anchors": ["xdvdfs-core/src/blockdev.rs: OffsetWrapper", "xdvdfs-cli/src/img.rs: open_image_raw"]}
{"id": "C127", "title": "Commands do not panic on untrusted images", "statement": "Whatever the file contains, ls, tree, info, md5, checksum, unpack and copy-out end with a result or an error and never panic.", "quantifier": "all files, untrusted or corrupt, and all arguments", "why_tests_cant": "All contents of a file.", "anchors": ["xdvdfs-cli/src/cmd_read.rs", "xdvdfs-cli/src/cmd_md5.rs", "xdvdfs-cli/src/cmd_info.rs", "xdvdfs-cli/src/cmd_unpack.rs", "xdvdfs-core/src/layout.rs: walk_path"]}
{"id": "C128", "title": "Commands end on every image without cycles", "statement": "tree, checksum, md5 and unpack end on every file whose root directory has no cycle; ls, info, md5 and copy-out with a path end if the search for the path does not run in circles and what it selects has no cycle. Nothing else is assumed of the image.", "quantifier": "all files, untrusted or corrupt, without cycles", "why_tests_cant": "All shapes of tables, also unbalanced, overlapping or with pointers backwards.", "anchors": ["xdvdfs-cli/src/cmd_read.rs", "xdvdfs-cli/src/cmd_md5.rs", "xdvdfs-cli/src/cmd_info.rs", "xdvdfs-cli/src/cmd_unpack.rs", "xdvdfs-core/src/layout.rs: walk_path", "xdvdfs-core/src/read.rs: file_tree, walk_dirent_tree"]}
{"id": "C129", "title": "Packing replaces what was in the output", "statement": "Packing onto a file that is not empty gives an image of the source tree whenever packing onto an empty file does; every byte of the file is the one of that image or is left as it was.", "quantifier": "all source trees and all old contents", "why_tests_cant": "All old contents, such as images of other trees.", "anchors": ["xdvdfs-core/src/write/img.rs: create_xdvdfs_image", "xdvdfs-core/src/blockdev.rs: BlockDeviceWrite for File"]}
{"id": "C130", "title": "A partition can be packed in its place", "statement": "Packing into the partition of a larger file (OffsetWrapper) leaves everything in front of the partition alone, gives an image of the tree in the partition, and does not lengthen the file if the new image is not longer than the old one and needs no padding.", "quantifier": "all trees, files and places of the partition", "why_tests_cant": "Files of several gigabytes.", "anchors": ["xdvdfs-core/src/blockdev.rs: BlockDeviceWrite for OffsetWrapper", "xdvdfs-core/src/write/img.rs: create_xdvdfs_image"]}
{"id": "C131", "title": "Positions of a partition are relative to it", "statement": "Seeking in the partition of a larger file (OffsetWrapper) counts from its start, and the position that is returned can be used to come back.", "quantifier": "all files, positions and places of the partition", "why_tests_cant": "Files of several gigabytes.", "anchors": ["xdvdfs-core/src/blockdev.rs: Seek for OffsetWrapper"]}
{"id": "C132", "title": "The exit status tells whether the command succeeded", "statement": "xdvdfs and extract-xiso exit with 0 exactly if the command succeeds and with 1 exactly if it reports an error, which is printed unless -q or -Q is given. A process that exits with 0 met no failure of the host. ls, tree, md5, checksum, info and -l change no file. -q and -Q change neither the status nor what is done. extract-xiso without a mode is -x.", "quantifier": "all commands, arguments, file systems and failures of the host", "why_tests_cant": "All failures at all points of all commands.", "anchors": ["xdvdfs-cli/src/main.rs: main, run_xdvdfs_program, run_command", "xdvdfs-cli/src/exiso_compat.rs: run_exiso_program, run_exiso_command"]}
{"id": "C133", "title": "Programs from end to end", "statement": "On files of the host: checksum and -l print the results for each image in order and stop at the first that is none, with exit status 1; unpack restores the tree and exits with 0; pack followed by unpack gives a copy of the source directory, and both exit with 0.", "quantifier": "all directory trees, file systems, images and numbers of images", "why_tests_cant": "All trees and file systems.", "anchors": ["xdvdfs-cli/src/main.rs", "xdvdfs-cli/src/cmd_read.rs: cmd_checksum", "xdvdfs-cli/src/cmd_pack.rs", "xdvdfs-cli/src/cmd_unpack.rs", "xdvdfs-cli/src/exiso_compat.rs: exiso_list"]}
{"id": "C134", "title": "Messages tell errors apart", "statement": "Two errors with the same message are the same error, with the same details, for every error type of xdvdfs-core, if this holds for the errors of the device, of bincode and of wax. The message of an error ends in the message of its cause.", "quantifier": "all errors and all texts inside them", "why_tests_cant": "Messages contain arbitrary text of the user.", "anchors": ["xdvdfs-core/src/util.rs: Error", "xdvdfs-core/src/write/mod.rs: WriteError, FileStructureError", "xdvdfs-core/src/write/fs/xdvdfs.rs: XDVDFSFilesystemError", "xdvdfs-core/src/write/fs/remap.rs: RemapOverlayFilesystemBuildingError, RemapOverlayError"]}
{"id": "C135", "title": "Where a rule puts a file", "statement": "The image path of a host path that a map rule matches is: the rewrite template with the captures filled in, without the dots at its start, split at slashes (empty names do not count), followed by the part of the host path below the matched directory. A pattern is compared with the names of the host path with slashes in between, without one at the start.", "quantifier": "all templates, captures and host paths", "why_tests_cant": "All templates, with empty names, dots and slashes anywhere.", "anchors": ["xdvdfs-core/src/write/fs/remap.rs: RemapOverlayFilesystem::new", "xdvdfs-core/src/write/fs/mod.rs: PathVec"]}
{"id": "C136", "title": "Images built with rules unpack below the destination", "statement": "Whatever the map rules are, an overlay of a Unix directory has no empty names and no names with slashes, and unpacking an image built from it changes nothing outside of the destination, also if the rules have .. in their targets.", "quantifier": "all directory trees, rules, file systems and failures of the host", "why_tests_cant": "All rules.", "anchors": ["xdvdfs-core/src/write/fs/remap.rs: RemapOverlayFilesystem::new", "xdvdfs-cli/src/cmd_unpack.rs: copyout_directory"]}
{"id": "C137", "title": "Images built with rules can be unpacked", "statement": "Unpacking an image that was built from a Unix directory with map rules restores what the rules describe.", "quantifier": "all directory trees, rules and destinations", "why_tests_cant": "All rules.", "anchors": ["xdvdfs-core/src/write/fs/remap.rs: RemapOverlayFilesystem::new", "xdvdfs-cli/src/cmd_unpack.rs: copyout_directory"]}
{"id": "C138", "title": "Operations on paths", "statement": "For PathVec: the base of a path extended by a name is the path, and the root has none (a panic). The suffix of a path after a prefix is the rest, the root if the path is itself a prefix of the given one, and a panic otherwise. The text of a path is a slash and the names with slashes in between; for names without slashes it determines the path. The host path made from a prefix and a path denotes the place below the prefix.", "quantifier": "all paths, names and prefixes", "why_tests_cant": "All paths.", "anchors": ["xdvdfs-core/src/write/fs/mod.rs: PathVec"]}
{"id": "C139", "title": "Files that are no images are refused without a change", "statement": "A command that is given a file that is no image fails and changes no file.", "quantifier": "all files without a volume, commands, file systems and destinations", "why_tests_cant": "All files that are no images, and all states of the host.", "anchors": ["xdvdfs-cli/src/cmd_pack.rs: cmd_pack_path", "xdvdfs-cli/src/exiso_compat.rs: exiso_repack, exiso_extract", "xdvdfs-cli/src/cmd_unpack.rs", "xdvdfs-web/src/ops/browser.rs: pack_image"]}
{"id": "C140", "title": "Packing leaves nothing out", "statement": "If an image is created, then every directory that is seen from the root could be listed and every file could be copied: there is no entry that is skipped because of an error. A directory of the host that contains a symbolic link, a device, a socket, a name that is not UTF-8, or something that cannot be read is refused; otherwise, the image has all that it contains.", "quantifier": "all file systems, devices, directory trees and special files", "why_tests_cant": "Directories with any contents at any depth.", "anchors": ["xdvdfs-core/src/write/img.rs: create_xdvdfs_image, dir_tree", "xdvdfs-core/src/write/fs/stdfs.rs: read_dir, copy_file_in"]}
{"id": "C141", "title": "The checksum survives writing an image again", "statement": "After a successful `xdvdfs pack A B` from an image A, `xdvdfs checksum A B` prints the same checksum twice; a successful extract-xiso -r does not change what `checksum` prints for the image; and after `unpack A D` and a successful `pack D B`, in whatever order the host lists the directories, `checksum A B` prints the same checksum twice. For the first two, the tables of the image have no gaps and no stale records (as all that this library packs), otherwise C120 applies.", "quantifier": "all images, hash functions, hosts, destinations, working directories and listing orders", "why_tests_cant": "All images, and sequences of three processes.", "anchors": ["xdvdfs-core/src/checksum.rs: checksum", "xdvdfs-cli/src/cmd_read.rs: cmd_checksum", "xdvdfs-cli/src/cmd_pack.rs", "xdvdfs-cli/src/cmd_unpack.rs", "xdvdfs-cli/src/exiso_compat.rs: exiso_repack"]}
{"id": "C142", "title": "The page learns how a job ends", "statement": "Each job of the graphical interface (pack, compress, unpack; in the browser or through a command of the desktop application) sends reports and then exactly one message about its end, as the last one: the page then shows success if the job succeeded (the command answered with nothing) and otherwise the text of the failure. Until then nothing can be clicked on the page for packing.", "quantifier": "all jobs, reports, results and states of the page", "why_tests_cant": "All sequences of messages and all results.", "anchors": ["xdvdfs-web/src/ops/browser.rs", "xdvdfs-web/src/ops/tauri.rs", "xdvdfs-web/src/packing.rs: update", "xdvdfs-web/src/compress.rs: update", "xdvdfs-web/src/unpacking.rs: update"]}
{"id": "C143", "title": "The percentage is right", "statement": "The pages show 100 times what is done, divided by what there is to do, rounded down (0 if there is nothing to do).", "quantifier": "all numbers of files and sectors", "why_tests_cant": "Numbers that are out of reach of tests.", "anchors": ["xdvdfs-web/src/packing.rs: view", "xdvdfs-web/src/compress.rs: view", "xdvdfs-web/src/unpacking.rs: view"]}
{"id": "C144", "title": "Lookups read few entries", "statement": "A lookup in an image made by this library reads, for each component of the path, at most k directory entries, where k is about 1.44 times the binary logarithm of the number of entries (the Fibonacci number of k + 3 exceeds the number of entries plus one), and never more than 19. In a well-formed directory of another origin, it reads at most as many as the depth of its tree.", "quantifier": "all directory trees, images and paths, whether they exist or not", "why_tests_cant": "All sizes and shapes of directories and all paths.", "anchors": ["xdvdfs-core/src/read.rs: find_dirent, walk_path", "xdvdfs-core/src/write/avl.rs", "xdvdfs-core/src/write/dirtab.rs: disk_repr"]}
{"id": "C145", "title": "Debug and release builds write the same image", "statement": "For every file system and every device, packing in a debug build (with overflow checks) either panics because of an overflow or gives the same result, the same reports and the same bytes as in a release build. For directory trees with files below 4 GiB, the panic does not occur: both builds write the same image.", "quantifier": "all file systems, devices, states and directory trees", "why_tests_cant": "Both builds, on all inputs.", "anchors": ["xdvdfs-core/src/write/img.rs: create_xdvdfs_image", "xdvdfs-core/src/write/sector.rs", "xdvdfs-core/src/write/dirtab.rs"]}
{"id": "C146", "title": "Packing is reproducible", "statement": "Packing the same directory tree gives the same bytes, whatever the file system that presents it, the order of its listings, the progress reports and the build; in particular there are no times and nothing from the host in the image. Packing an image that was made by this library again does not change it.", "quantifier": "all directory trees, file systems and builds", "why_tests_cant": "All listing orders, and two independent runs.", "anchors": ["xdvdfs-core/src/write/img.rs: create_xdvdfs_image, dir_tree", "xdvdfs-core/src/write/avl.rs", "xdvdfs-core/src/write/fs/stdfs.rs: read_dir"]}
{"id": "C147", "title": "An image does not unpack to more than it contains", "statement": "The data of all files of an image, and 16 bytes for each of its entries, take less space than the image itself: unpacking writes at most as many bytes as the image has.", "quantifier": "all images and directory trees", "why_tests_cant": "All images, including those made to exhaust the disk.", "anchors": ["xdvdfs-core/src/read.rs: file_tree", "xdvdfs-cli/src/cmd_unpack.rs: cmd_unpack", "xdvdfs-core/src/write/img.rs: create_xdvdfs_image"]}
{"id": "C148", "title": "Directory listings in pages of any size", "statement": "A directory of a mounted image can be read in pages of any size, as long as each has room for one record: every request is answered, and the pages together give '.', '..' and each entry once.", "quantifier": "all directory trees, images, directories, offsets and sizes of pages", "why_tests_cant": "All sizes of buffers of the kernel, and all other requests in between.", "anchors": ["xdvdfs-fsd/src/img_fs.rs: readdir"]}
{"id": "C149", "title": "extract-xiso and copy-out from end to end", "statement": "As processes on files of the host: extract-xiso -r exits with 0 and leaves, at the place of every image, a packed image of its tree; the originals are beside them with the extension .old, or with -D gone. If it does not exit with 0, the image is still there under its old or its new name. -x exits with 0 and restores the tree of every image, -c packs every directory, and -c followed by -x gives a copy that equals the source. copy-out restores the directory that was selected. Nothing else on the host changes.", "quantifier": "all hosts, images, directory trees and lists of arguments", "why_tests_cant": "All sequences of two processes and all hosts.", "anchors": ["xdvdfs-cli/src/main.rs: main", "xdvdfs-cli/src/exiso_compat.rs", "xdvdfs-cli/src/cmd_pack.rs: cmd_pack_path", "xdvdfs-cli/src/cmd_unpack.rs"]}
{"id": "C150", "title": "Dialogs do not confuse a page", "statement": "Opening a dialog for the input or the output, and choosing something in it later, has the same effect as choosing it at once: the page never runs two jobs, keeps an input of the kind that it shows, and does not panic. Leaving a dialog without a choice changes nothing.", "quantifier": "all sequences of clicks, choices and messages of jobs", "why_tests_cant": "All interleavings of dialogs, clicks and jobs.", "anchors": ["xdvdfs-web/src/picker/mod.rs: update", "xdvdfs-web/src/picker/browser.rs", "xdvdfs-web/src/picker/tauri.rs", "xdvdfs-web/src/packing.rs: view, update", "xdvdfs-web/src/compress.rs: view, update", "xdvdfs-web/src/unpacking.rs: view, update"]}
{"id": "C151", "title": "A source that changes while it is packed", "statement": "Packing a directory that other programs change meanwhile fails, or gives an image of what was listed, with the contents that the files had when they were opened, in the size that was listed: larger files are cut off, shorter ones are filled up with zeros, and no file spills into another. Everything in the image can be read.", "quantifier": "all directories, and all changes between listing and copying", "why_tests_cant": "All interleavings of packing with changes of the source.", "anchors": ["xdvdfs-core/src/write/img.rs: create_xdvdfs_image, dir_tree", "xdvdfs-core/src/write/fs/stdfs.rs: copy_file_in, read_dir"]}
{"id": "C152", "title": "Packing or building again gives the same image", "statement": "Running pack or build-image a second time with the same arguments on an unchanged source ends as the first run did and leaves the host as the first run did: the image of the first run is replaced by an equal one.", "quantifier": "all hosts, sources, rules and working directories", "why_tests_cant": "All sources and rules, and two runs.", "anchors": ["xdvdfs-cli/src/cmd_pack.rs: cmd_pack, cmd_pack_path", "xdvdfs-cli/src/cmd_build_image.rs: cmd_build_image", "xdvdfs-core/src/write/fs/remap.rs: new, read_dir"]}
{"id": "C153", "title": "Reading into a buffer gives the beginning of the file", "statement": "read_data fills a buffer of the caller with the beginning of the file, never with anything behind its end; the buffer keeps its length, and an empty file leaves it as it is.", "quantifier": "all images, entries and buffers", "why_tests_cant": "All sizes of buffers, also larger than the file.", "anchors": ["xdvdfs-core/src/layout.rs: read_data, read_data_all"]}
{"id": "C154", "title": "The first entry of an image", "statement": "root_dirent of an image gives an entry of its root directory, the one that the table starts with, with the kind and the contents of that entry; it gives none, or the error for an empty directory, exactly if the root directory is empty.", "quantifier": "all devices and directory trees", "why_tests_cant": "All tables and tree shapes.", "anchors": ["xdvdfs-core/src/read.rs: root_dirent, read_dirent"]}
{"id": "C155", "title": "Unpacking over something that is already there", "statement": "Unpacking an image to a place where there is something already, for example an earlier copy, replaces the files that have the same names and leaves everything else as it was. If it succeeds, everything in the image is there as it is in the image, however much room was left on the host.", "quantifier": "all hosts, images, directory trees and destinations", "why_tests_cant": "All earlier contents of the destination and all moments at which the host fails.", "anchors": ["xdvdfs-cli/src/cmd_unpack.rs: cmd_unpack, copyout_directory"]}
{"id": "C156", "title": "Reading does not depend on the width of machine words", "statement": "On a platform with 32-bit addresses, as in the browser, reading an image gives what it gives on a 64-bit platform: the same entries, data, checksums and totals, and errors where it gives errors.", "quantifier": "all images in memory, tables, entries and builds", "why_tests_cant": "Tests run on 64-bit platforms; overflow needs sectors and sizes near the limits.", "anchors": ["xdvdfs-core/src/blockdev.rs: read for [u8]", "xdvdfs-core/src/layout.rs: read_data_all", "xdvdfs-core/src/read.rs: scan_dirent_tree", "xdvdfs-core/src/checksum.rs: checksum", "xdvdfs-cli/src/cmd_read.rs: cmd_tree"]}
{"id": "C157", "title": "Unpacking on Windows stays inside the destination", "statement": "On Windows, every path that unpacking creates is the destination followed by the path of an entry in the image: nothing is created beside the destination, in the root of a drive or on another drive, whatever the names in the image are.", "quantifier": "all images, destinations, drives and working directories", "why_tests_cant": "Tests do not run on Windows, and all names of hostile images.", "anchors": ["xdvdfs-cli/src/cmd_unpack.rs: copyout_directory"]}
{"id": "C158", "title": "Failures of the browser while packing reach the page", "statement": "While a directory is packed in the browser, any call of the browser may fail and any file of the source may change. If the job reports success then the output file holds the image of the files as they were when they were copied; otherwise the output file is unchanged and the page shows an error, and does not wait forever.", "quantifier": "all source trees, all patterns of failing calls and changing files, all previous contents of the output", "why_tests_cant": "Browsers seldom refuse calls in tests, and not each of them in turn.", "anchors": ["xdvdfs-web/src/fs/mod.rs: FSWriteWrapper::new", "xdvdfs-web/src/fs/mod.rs: FSWriteWrapper::close", "xdvdfs-web/src/fs/mod.rs: WebFileSystem::new", "xdvdfs-web/src/fs/mod.rs: copy_file_in", "xdvdfs-web/src/ops/browser.rs: pack_image_impl"]}
{"id": "C159", "title": "A mounted image of any origin answers the requests", "statement": "When any file has been mounted, whatever its bytes, mounting itself and the requests getattr, open, opendir and read are answered with data or an error number after any history of requests: none panics or runs forever. Listing a directory always ends, and is answered unless a name in the table crosses the end of a sector. A lookup is answered exactly if its search does not run in circles.", "quantifier": "all image files, all histories of requests, all inode numbers, names, positions and reply sizes", "why_tests_cant": "A request that panics or hangs stops the whole mounted file system; only crafted images lead there, and no test mounts any.", "anchors": ["xdvdfs-fsd/src/img_fs.rs: lookup, getattr, open, read, opendir, readdir", "xdvdfs-core/src/read.rs: DirentScanIter::next_entry, find_dirent"]}
{"id": "C160", "title": "Reading needs little memory", "statement": "No operation on an image fills a buffer larger than what the caller asked for or the image can justify. Recognising, searching, listing and scanning fill buffers of at most 2048 bytes, whatever the image says; lookups and listings of a mounted image too, and reads of it at most the requested size; copying out of an image 1 MiB. Reading whole files and checksums need no more than the length of the image.", "quantifier": "all devices, all tables, paths, requests and sizes", "why_tests_cant": "Tests measure results, not the sizes of buffers, and have no image whose records claim absurd sizes.", "anchors": ["xdvdfs-core/src/layout.rs: read_data_all, read_data_offset", "xdvdfs-core/src/read.rs: read_volume, read_dirent, walk_path, walk_dirent_tree, file_tree, DirentScanIter", "xdvdfs-core/src/checksum.rs: checksum", "xdvdfs-core/src/write/fs/xdvdfs.rs: RWCopier::copy", "xdvdfs-fsd/src/img_fs.rs: read, lookup, readdir"]}
{"id": "C161", "title": "Offsets stay where floating point numbers are exact", "statement": "Whatever is read of an image of any origin (volume descriptor, searching, listing, scanning, file data) ends below position 2^44, so no offset overflows 64 bits and none is rounded by the browser back end, which passes offsets to the browser as 64-bit floating point numbers. Unpacking, packing a directory, packing an image and laying out for compression give the same in the browser with rounded offsets as with exact ones.", "quantifier": "all devices and image files, all trees, tables, paths, quotas and rules for names, both build modes", "why_tests_cant": "Rounding begins at 2^53 bytes; no test can have such an image, and only a proof about the fields of the format excludes that small images lead there.", "anchors": ["xdvdfs-web/src/fs/mod.rs: FSWriteWrapper::write", "xdvdfs-web/src/fs/mod.rs: FileSystemFileHandle::read", "xdvdfs-web/src/fs/mod.rs: copy_file_in", "xdvdfs-web/src/ops/browser.rs: unpack_image_impl", "xdvdfs-core/src/layout.rs: DiskRegion::offset"]}
{"id": "C162", "title": "Reading from devices that change or fail meanwhile", "statement": "When requests to a device fail now and then, reading gives the right result or reports an I/O error (for the volume descriptor: invalid volume); this holds for lookups, listings, scans, file trees, file data and checksums. When a device gives arbitrary answers that may depend on all earlier requests, nothing panics (paths of slashes only aside), and scanning ends. Every entry that is listed was on the device at some time.", "quantifier": "all devices with any state that answer any request in any state with bytes or an error; all tables, paths, entries and offsets", "why_tests_cant": "Tests use images that stay as they are; failures between any two requests and changes in between cannot be enumerated.", "anchors": ["xdvdfs-core/src/read.rs: read_volume, root_dirent, read_dirent, find_dirent, walk_path, walk_dirent_tree, file_tree, DirentScanIter", "xdvdfs-core/src/layout.rs: read_data_all, read_data_offset", "xdvdfs-core/src/blockdev.rs: OffsetWrapper::new", "xdvdfs-core/src/checksum.rs: checksum"]}
{"id": "C163", "title": "Reading makes few requests", "statement": "Scanning a directory asks the device for every sector of its table once, in their order and with full sectors, and for all of them if it succeeds. Listing n entries takes at most 3n + 1 requests. Looking up a path in a packed image takes at most 38 requests per component. File data takes one request, none if there is no data. Searching for the volume makes one request per candidate, up to the one that is chosen.", "quantifier": "all devices with any state, all tables, entries, sizes and offsets; for lookups all packed images and paths", "why_tests_cant": "Tests look at results, not at the requests behind them; bounds need all images.", "anchors": ["xdvdfs-core/src/read.rs: DirentScanIter::next_entry, DirentScanIter::next_sector, scan_dirent_tree, walk_dirent_tree, walk_path", "xdvdfs-core/src/layout.rs: read_data_all, read_data_offset", "xdvdfs-core/src/blockdev.rs: OffsetWrapper::new"]}
{"id": "C164", "title": "Unpacking onto hosts that ignore case", "statement": "Unpacking onto a host that does not distinguish some names, such as names that differ in case, restores every file and directory of the image, under its folded name.", "quantifier": "all foldings of characters that leave slash, dot and NUL alone; all images with Unix names and all free destinations", "why_tests_cant": "Tests run on one file system, with a few names; the collision needs names outside ASCII.", "anchors": ["xdvdfs-cli/src/cmd_unpack.rs: cmd_unpack, copyout_directory", "xdvdfs-core/src/util.rs: cmp_ignore_case_utf8"]}
{"id": "C165", "title": "Compressing reports success only if the files are complete", "statement": "If compressing succeeds, every file of the compressed image has the contents that were written to it; on a disk that does not fail, all writes succeed and the files are complete.", "quantifier": "all sequences of creating, writing and closing files that the compressor may make; all disks whose successful writes are carried out", "why_tests_cant": "Tests do not fill up disks; the failure is at the very end, where no result is looked at.", "anchors": ["xdvdfs-cli/src/cmd_compress.rs: SplitStdFs, cmd_compress", "xdvdfs-desktop/src/compress.rs: SplitStdFs"]}
{"id": "C166", "title": "A mounted image whose file changes", "statement": "When the file of a mounted image changes between requests, attributes that were given for an inode number stay the same, a number is given to the same entry again and to no other, reads look at the place that was looked up in the present contents, and lookups and reads do not panic. What is read of a file is its earlier or its present contents.", "quantifier": "all image files, all sequences of lookups and listings with any arguments and outcome, all changes of the file in between, all offsets and sizes", "why_tests_cant": "Tests mount images that stay as they are; histories of requests and changes cannot be enumerated.", "anchors": ["xdvdfs-fsd/src/img_fs.rs: lookup", "xdvdfs-fsd/src/img_fs.rs: getattr", "xdvdfs-fsd/src/img_fs.rs: read", "xdvdfs-fsd/src/img_fs.rs: readdir", "xdvdfs-fsd/src/img_fs.rs: get_or_assign_inode"]}
{"id": "C167", "title": "A compressed image reads like the image", "statement": "The commands that accept compressed images (ls, tree, info, md5, checksum) print for a compressed image what they print for the image that was compressed. In particular, tree prints the tree of a packed image.", "quantifier": "all images, all commands with all arguments, all readers that give the bytes of the image and fail behind its end; both build modes and all hash functions", "why_tests_cant": "Tests have no compressed images, and none whose partition is not at the beginning.", "anchors": ["xdvdfs-cli/src/img.rs: open_image", "xdvdfs-cli/src/img.rs: CSOBlockDevice::read", "xdvdfs-cli/src/cmd_read.rs: cmd_ls, cmd_tree, checksum_single", "xdvdfs-cli/src/cmd_md5.rs: cmd_md5", "xdvdfs-cli/src/cmd_info.rs: cmd_info"]}
{"id": "C168", "title": "Compressing in the browser writes complete files or none", "statement": "When compressing in the browser succeeds, the files have the contents that were written to them, whatever they contained before. If it fails, every file is either complete as far as it was asked for and closed, or as it was before. Unless the browser fails, compressing does not fail.", "quantifier": "all sequences of calls by the compressor, all failures of the browser (creating, opening, writing and closing files), all contents of existing files", "why_tests_cant": "The page cannot be tested outside of a browser, and browsers do not fail on demand.", "anchors": ["xdvdfs-web/src/fs/ciso.rs: CisoOutputDirectory", "xdvdfs-web/src/fs/mod.rs: FSWriteWrapper", "xdvdfs-web/src/ops/browser.rs: compress_image_impl"]}
{"id": "C169", "title": "Failures while unpacking in the browser are reported, and leave whole files", "statement": "Whatever calls of the browser fail while an image is unpacked, the result is the same as without failures or an error is reported after some of the progress messages; success means that everything was unpacked. Afterwards every path is as it was before, or has the entry of the image there, complete, or a new empty file.", "quantifier": "all files with one volume, all destinations and their contents, all failures of calls for entries, streams and reads of the image, at all times", "why_tests_cant": "The page cannot be tested outside of a browser, and browsers do not fail on demand.", "anchors": ["xdvdfs-web/src/ops/browser.rs: unpack_image", "xdvdfs-web/src/fs/mod.rs: BlockDeviceRead for FileSystemFileHandle", "xdvdfs-web/src/fs/util.rs: create_file, create_directory"]}
{"id": "C170", "title": "Packing depends on destination and source only through what they do", "statement": "Packing to two destinations that behave alike, from sources that behave alike, gives the same progress messages and the same result, and leaves destinations that behave alike. On every destination that keeps bytes as a file does, the image is that of a file. In a browser whose calls do not fail, packing with failure handling is packing without.", "quantifier": "all types of destinations and sources, all relations between their states, all trees; both build modes", "why_tests_cant": "The function is generic; tests run it with a few types only.", "anchors": ["xdvdfs-core/src/write/img.rs: create_xdvdfs_image", "xdvdfs-core/src/blockdev.rs: BlockDeviceWrite", "xdvdfs-core/src/write/fs/mod.rs: FilesystemHierarchy, FilesystemCopier", "xdvdfs-web/src/ops/browser.rs: pack_image_impl"]}
{"id": "C171", "title": "build-image only needs the files that its rules select", "statement": "An overlay of a host directory is made exactly as for the tree of its files and directories, and the image of it too, as long as the selected files can be opened; files that are not selected may be unreadable. If the directory contains anything else somewhere (links, devices, unreadable directories, names that are not UTF-8), an error is reported and nothing is left out silently.", "quantifier": "all host directories, rules, glob languages and build modes", "why_tests_cant": "Host directories in tests contain plain files only.", "anchors": ["xdvdfs-core/src/write/fs/remap.rs: RemapOverlayFilesystem::new", "xdvdfs-core/src/write/fs/stdfs.rs: read_dir, copy_file_in"]}
{"id": "C172", "title": "Reads that give fewer bytes than were asked for do no harm", "statement": "If the host answers calls to read with fewer bytes than were asked for, images are read, directories are packed and compressed with the same result; failures of calls are reported.", "quantifier": "all files and directory trees, all answers of the host to each call, also failures; both build modes", "why_tests_cant": "Local file systems give all bytes in tests; network and FUSE file systems need not.", "anchors": ["xdvdfs-core/src/blockdev.rs: BlockDeviceRead for R", "xdvdfs-core/src/write/fs/stdfs.rs: copy_file_in"]}
{"id": "C173", "title": "The dry run of build-image tells the files of the image", "statement": "If build-image ends with success, a dry run with the same rules exits with 0, changes nothing, and prints lines 'host -> image' that tell of each file of the image which host file it is, and of no other files.", "quantifier": "all host directories, map rules, file names and image paths outside of the directory; both build modes", "why_tests_cant": "Tests compare the output of some dry runs; none builds the image as well and compares.", "anchors": ["xdvdfs-cli/src/cmd_build_image.rs: cmd_build_image", "xdvdfs-core/src/write/fs/remap.rs: dump"]}
{"id": "C174", "title": "The lines printed while packing tell each file and directory once", "statement": "While pack and build-image pack, they print lines '[i/n] Added file: path at sector s' or '[i/n] Added dir: ...': i counts from 1 to n, and each file and directory is told by exactly one line, with its sector in the image.", "quantifier": "all source trees; both commands; both build modes; the numbers also for runs that fail", "why_tests_cant": "No test looks at the output of the commands while they pack.", "anchors": ["xdvdfs-cli/src/cmd_pack.rs: cmd_pack_path", "xdvdfs-cli/src/cmd_build_image.rs: cmd_build_image", "xdvdfs-core/src/write/img.rs: create_xdvdfs_image"]}
{"id": "C175", "title": "Unpack tells what it extracts", "statement": "When an image is unpacked to a free place, one line 'Extracting file path' or 'Extracting directory path' is printed for each entry of the image; if the host refuses something, the last line tells the entry that could not be extracted, and those told before have been.", "quantifier": "all images, directory trees and destinations without a slash at the end; failures for any image and any host", "why_tests_cant": "No test looks at the output of unpack, nor makes the host fail half way.", "anchors": ["xdvdfs-cli/src/cmd_unpack.rs: copyout_directory", "xdvdfs-cli/src/cmd_unpack.rs: cmd_unpack"]}
{"id": "C176", "title": "Compressing a directory of the host leaves nothing out", "statement": "When a directory of the host is compressed, special files, names that are not UTF-8 and directories that cannot be listed are reported as errors before anything is read; a file that cannot be opened is reported by the read of one of the sectors of the image; all other sectors are those of the image that packing would make. If every sector can be read, every file that is not empty was read.", "quantifier": "all directories of the host with any mixture of files, directories, unreadable files and directories, and special files", "why_tests_cant": "Tests compress directories whose files can all be read.", "anchors": ["xdvdfs-core/src/write/fs/stdfs.rs: copy_file_in", "xdvdfs-core/src/write/fs/stdfs.rs: read_dir", "xdvdfs-core/src/write/fs/sector_linear.rs: read_sector", "xdvdfs-cli/src/cmd_compress.rs: cmd_compress"]}
{"id": "C177", "title": "Compress tells where it puts files", "statement": "If a directory tree can be packed, compress lays it out with the same messages as pack; each directory is told once by a line 'Added dir: path at sector n' and each entry other than the root once by a line 'Added file: path at sector n', where n is the first sector of the entry in the image.", "quantifier": "all directory trees that can be packed, all ways to write paths", "why_tests_cant": "No test looks at the output of compress.", "anchors": ["xdvdfs-cli/src/cmd_compress.rs: cmd_compress", "xdvdfs-core/src/write/img.rs: create_xdvdfs_image"]}
