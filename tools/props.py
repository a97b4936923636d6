#!/usr/bin/env python3
# Generates /verif/properties.jsonl (kept as source so the list can grow).
import json
P=[]
def p(title, statement, quantifier, why, anchors):
    P.append(dict(id="C%02d"%(len(P)+1), title=title, statement=statement, quantifier=quantifier, why_tests_cant=why, anchors=anchors))
W="xdvdfs-core/src/write/"; R="xdvdfs-core/src/"
p("Directory index stays a balanced search tree",
  "Adding entries to a directory table, in any number and any order, never panics and never loops; afterwards the index is a binary search tree in name order, whose parent links and stored heights are right and whose sibling subtrees differ in height by at most one.",
  "every finite sequence of insertions of any totally ordered element type",
  "Rotations depend on insertion order; 1000 random integers cannot visit every rotation context, depth and duplicate position.",
  [W+"avl.rs: AvlTree::insert, rebalance, l_rotate, r_rotate, rl_rotate, lr_rotate"])
p("Insertion is set insertion",
  "insert returns true exactly when no equal element was inserted before; an insertion that returns false leaves the tree exactly as it was; the in-order contents are the strictly sorted list of the first inserted representative of every distinct key.",
  "every insertion history", "Needs all histories, including duplicates that arrive after arbitrary rotations.",
  [W+"avl.rs: AvlTree::insert", W+"dirtab.rs: add_node"])
p("Directory index depth is logarithmic",
  "An index of n entries has depth d with F(d+2) <= n+1 for F the Fibonacci numbers, so d <= 2*log2(n+1)+1 and stored i32 heights cannot overflow.",
  "every insertion history", "Depth bounds are about all shapes the algorithm can reach.",
  [W+"avl.rs: rebalance, update_node_height"])
p("Preorder reordering of the backing store is exact",
  "Reordering the backing vector makes its i-th element the i-th element of the preorder traversal, keeps the same tree (same preorder, in-order, links, heights), and never panics.",
  "every tree reachable by insertions", "The in-place permutation goes wrong only for particular parent/sibling position coincidences.",
  [W+"avl.rs: reorder_backing_preorder, swap_backing_elements, parent_node_ref"])
p("File name comparison is a total order modulo ASCII case",
  "Comparison is reflexive, antisymmetric up to Equal, transitive and total; two names compare Equal exactly when they agree after mapping a-z to A-Z; it is the lexicographic order of the upper-cased code points.",
  "all pairs and triples of strings", "Infinite domain; search-tree correctness depends on every triple.",
  [R+"util.rs: cmp_ignore_case_utf8"])
p("Volume descriptor codec round-trips",
  "Serializing a volume descriptor gives 2048 bytes at the documented field offsets; deserializing them gives the descriptor back; every 2048-byte buffer deserializes and re-serializes to itself.",
  "all descriptors with in-range fields, all 2048-byte buffers", "All field values and all buffers.",
  [R+"layout.rs: VolumeDescriptor::serialize, deserialize, is_valid"])
p("Directory entry codec round-trips",
  "Serializing a directory entry node gives 14 little-endian bytes in the documented order; deserialize inverts it; every 14-byte buffer deserializes and re-serializes to itself.",
  "all nodes with in-range fields, all 14-byte buffers", "All field values.",
  [R+"layout.rs: DirectoryEntryDiskNode::serialize, deserialize"])
p("Name encoding round-trips",
  "A name that the writer accepts is encoded in one byte per character, at most 255 bytes, and decoding these bytes gives the same name; decoding an on-disk name never fails; a name is rejected exactly when some character has no windows-1252 code or it is longer than 255 UTF-8 bytes.",
  "all strings and all byte sequences", "All strings over Unicode.",
  [R+"layout.rs: encode_name, name_str, len_on_disk", W+"dirtab.rs: add_node"])
p("Directory tables are laid out legally",
  "In a serialized directory table every entry starts at a multiple of 4, no entry crosses a 2048-byte boundary, entries appear in preorder without overlap, every gap byte is 0xff, the total is padded to a multiple of 2048, and the size announced beforehand (compute_size/dirtab_size) is the end of the last entry.",
  "every set of names a table can hold", "Alignment faults appear only at particular name-length combinations near a sector end.",
  [W+"dirtab.rs: sector_align, compute_size, disk_repr"])
p("Child pointers are exact",
  "In a serialized table each entry's left/right field times 4 is the offset of its left/right child, is 0 exactly when there is no child, and is never 0xffff (which the tree walker treats as absent).",
  "every set of names a table can hold", "The 0xffff coincidence would need one exact table size.",
  [W+"dirtab.rs: disk_repr", R+"read.rs: walk_dirent_tree"])
p("Serializing a directory table never panics",
  "disk_repr after compute_size either succeeds or reports TooManyDirectoryEntries; it reports TooManyDirectoryEntries exactly when the table would be larger than 262144 bytes; none of its assertions can fail and no index is out of range.",
  "every reachable table and allocator state without 32-bit overflow", "Assertions guard arithmetic over all name-length sequences.",
  [W+"dirtab.rs: disk_repr, compute_size"])
p("Allocated regions never overlap",
  "Consecutive allocations are contiguous, start at sector 33, are pairwise disjoint, and each is large enough for the requested bytes.",
  "every sequence of allocation requests whose total fits in 32 bits", "All request sequences.",
  [W+"sector.rs: SectorAllocator, required_sectors"])
p("Allocator overflow is detected",
  "When the sectors requested exceed the 32-bit range an allocation fails visibly instead of returning a region that overlaps an earlier one.",
  "every sequence of requests, in debug and in release builds", "Needs more than 8 TiB of files.",
  [W+"sector.rs: allocate_contiguous"])
p("Packing preserves every file",
  "After create_xdvdfs_image succeeds, opening the output with read_volume succeeds, and walk_path on the path of any source file returns an entry with the file's name and size and read_data_all on it returns exactly the source bytes; every source directory is found as a directory.",
  "every source tree, every path in it, any listing order", "Round trip over all trees, names, sizes and layouts.",
  [W+"img.rs: create_xdvdfs_image", R+"read.rs: read_volume, walk_path", R+"layout.rs: read_data_all"])
p("Lookups ignore ASCII case",
  "In a packed image walk_path finds the same entry for any two paths that differ only in ASCII letter case.",
  "every source tree and every path spelling", "All spellings of all paths.",
  [R+"read.rs: find_dirent, walk_path"])
p("Missing paths are reported as missing",
  "In a packed image walk_path on a path that names no source entry returns DoesNotExist, or IsNotDirectory when a proper prefix names a file; it never returns another entry, an I/O error or a panic.",
  "every source tree and every absent path", "All absent paths.",
  [R+"read.rs: find_dirent, walk_path"])
p("Recursive listing is exact",
  "file_tree on a packed image returns every source file and directory exactly once, with its parent path, name, kind and size, and nothing else.",
  "every source tree", "All trees.",
  [R+"read.rs: walk_dirent_tree, file_tree"])
p("Sector scan and tree walk agree",
  "On a packed image, scanning a directory sector by sector and walking its tree return the same entries, each exactly once.",
  "every directory of every packed image", "Scan correctness depends on padding at every sector end.",
  [R+"read.rs: scan_dirent_tree, next_entry, walk_dirent_tree"])
p("Packing succeeds exactly on representable trees",
  "create_xdvdfs_image on a growable file succeeds when, in every directory, names are pairwise different ignoring ASCII case, windows-1252 encodable and at most 255 UTF-8 bytes, files are below 4 GiB, the table fits in 256 KiB and the sectors fit in 32 bits; otherwise it returns the corresponding error (DuplicateFileName, StringEncodingError, FileNameTooLong, FileTooLarge, TooManyDirectoryEntries).",
  "every source tree", "Both directions over all trees.",
  [W+"img.rs: create_dirent_tables, create_xdvdfs_image", W+"dirtab.rs"])
p("Packing never panics",
  "create_xdvdfs_image on a growable file terminates and never panics, whatever the names, sizes and nesting, as long as 32-bit size arithmetic does not overflow.",
  "every source tree and listing order", "unwrap/expect/assert reachability over all trees.",
  [W+"img.rs", W+"dirtab.rs", W+"avl.rs"])
p("Image geometry",
  "A packed image has a length that is a multiple of 65536, its volume descriptor is at sector 32 and points to the root table at sector 33, and every byte outside the volume descriptor and the allocated regions is zero.",
  "every source tree", "All trees.",
  [W+"img.rs: create_xdvdfs_image"])
p("Interrupted packing is never mistaken for a complete image",
  "If packing stops after any prefix of its writes, with the last write torn at any byte, then either read_volume rejects the output or every file of the source can already be read back intact.",
  "every source tree, every crash point", "Every crash point and torn write.",
  [W+"img.rs: create_xdvdfs_image (volume descriptor written last)"])
p("Progress reports add up",
  "On success the number of DirAdded plus FileAdded events equals the announced FileCount plus DirCount, the reported sectors are the ones used in the image, and FinishedPacking is reported last and only on success.",
  "every source tree", "All trees.",
  [W+"img.rs: ProgressInfo, create_xdvdfs_image"])
p("Listing order does not matter",
  "Packing the same tree with the directory listings in a different order gives an image with the same paths, sizes and contents.",
  "every source tree and every permutation of its listings", "All permutations.",
  [W+"img.rs", W+"avl.rs"])
p("Volume detection is exact",
  "read_volume succeeds exactly when the 2048 bytes at sector 32 can be read and carry the magic at their start and end; otherwise it returns InvalidVolume.",
  "all devices and contents", "All contents.",
  [R+"read.rs: read_volume", R+"layout.rs: is_valid"])
p("Partition offset probing",
  "Opening a raw image selects the first of the offsets 0, 405798912, 265879552, 34078720 at which a valid volume is found, later reads are shifted by it, and InvalidVolume is returned when there is none.",
  "all devices", "All contents.",
  [R+"blockdev.rs: OffsetWrapper::new, read"])
p("Whole-file reads are exact",
  "read_data_all returns exactly the bytes of the entry's region, of exactly its size; an empty file needs no device access; a device failure is returned as an I/O error.",
  "all devices, all entries", "All entries.",
  [R+"layout.rs: read_data_all, read_data"])
p("Ranged reads stay inside the file",
  "read_data_offset(size, offset) returns the bytes of the file from offset, at most size and never bytes outside the file.",
  "all devices, entries, offsets and sizes", "All offsets; fails only near the end of a file.",
  [R+"layout.rs: read_data_offset"])
p("Path syntax is normalized",
  "walk_path ignores leading slashes and one trailing slash; the empty path and any path made of slashes only is reported as having no entry.",
  "all path strings", "All strings.",
  [R+"read.rs: walk_path"])
p("Lookups are sound on untrusted images",
  "On any image whatsoever, if walk_path returns an entry then the entry's name equals the last path component up to ASCII case, the entry is stored in the image at the reported offset, and every earlier component named a directory.",
  "all images and paths", "Arbitrary, also malicious, images.",
  [R+"read.rs: find_dirent, walk_path, read_dirent"])
p("Lookups are complete on well-formed images",
  "On any image whose directory tables are search trees in name order (not only images written by this library) find/walk_path finds every entry, and reports a name that is absent as DoesNotExist.",
  "all well-formed images and names", "All well-formed tables.",
  [R+"read.rs: find_dirent, walk_path"])
p("Traversal terminates on untrusted images",
  "Lookups and listings return on every image.",
  "all images", "Needs an adversarial image.",
  [R+"read.rs: find_dirent, walk_dirent_tree, file_tree"])
p("Sector scan terminates and never panics on untrusted images",
  "Scanning a directory returns after a number of entries bounded by its size, without panicking.",
  "all images", "Needs an adversarial image.",
  [R+"read.rs: DirentScanIter::next_entry"])
p("Buffered copy is exact",
  "The default copier copies exactly size bytes from the source offset to the destination offset, whatever the size relative to its 1 MiB buffer, changes nothing else in the destination, and returns size.",
  "all devices, offsets and sizes", "Chunk boundary cases.",
  [W+"fs/xdvdfs.rs: RWCopier::copy"])
p("Memory block devices are bounds-safe",
  "Writes to an in-memory device change exactly the addressed range or fail without change; reads return exactly the addressed range or fail with OutOfBounds.",
  "all buffers, offsets, lengths", "All offsets near the end.",
  [R+"blockdev.rs: impl BlockDeviceRead for [u8], BlockDeviceWrite for Box<[u8]> and [u8]"])
p("Copying host files into memory",
  "StdFilesystem::copy_file_in into an in-memory destination stores the file bytes at the output offset and zeroes the rest of the requested range, for any output offset.",
  "all files, offsets and sizes", "All offsets.",
  [W+"fs/stdfs.rs: FilesystemCopier<[u8]>, FilesystemCopier<Box<[u8]>>"])
p("Compression sees the packed image",
  "Packing onto the sector-linear device never hits the unimplemented overwrite, and reading all its sectors yields byte for byte the image that packing to a file produces.",
  "every source tree", "All trees.",
  [W+"fs/sector_linear.rs", W+"img.rs"])
p("Compressing from an existing image works",
  "Every sector of a sector-linear device packed from an XDVDFS image can be read.",
  "every source image", "Depends on file sizes modulo the sector size.",
  [W+"fs/sector_linear.rs: CisoSectorInput::read_sector", W+"fs/xdvdfs.rs: copy_file_in"])
p("Path map behaves as a map",
  "The path trie used by the overlay and repacking behaves as a map from paths to records: lookups return the first record inserted for a path, unrelated insertions do not disturb it, and iteration lists each entry of a directory exactly once.",
  "every insertion history", "All histories.",
  [W+"fs/mod.rs: PathPrefixTree"])
p("Repacking preserves contents",
  "Packing from an image produced by packing, whose names have only characters below U+0100 (see C41), gives an image with the same paths, kinds, sizes and contents; the only error that can occur is TooManyDirectoryEntries, when a table built in the other order gets too large. Packing from any image whose sector scans show a tree is packing that tree.",
  "every source tree with Latin-1 names", "All trees.",
  [W+"fs/xdvdfs.rs: XDVDFSFilesystem", W+"img.rs"])
p("Repacking accepts every name packing accepts",
  "Listing an image through XDVDFSFilesystem does not panic for any name that packing can store.",
  "all names", "All names.",
  [W+"fs/mod.rs: PathPrefixTree::insert_tail", W+"fs/xdvdfs.rs: read_dir"])
p("Rewrite template parsing",
  "A rewrite template is accepted exactly when every opening brace is closed and only digits (or further opening braces) stand in between; the reported indices are the numbers written between the braces, in order.",
  "all template strings", "All strings.",
  [W+"fs/remap.rs: find_match_indices"])
p("Overlay maps each listed file to its host file",
  "In a remap overlay every listed path has a host file or is a synthesized directory, a file listed at an image path is copied from the first host path that was rewritten to it, and nothing is listed that no rule produced.",
  "every host tree, rule list and glob matcher", "All trees and rules.",
  [W+"fs/remap.rs: RemapOverlayFilesystem"])
p("Overlay loses no mapped file",
  "Every host file that a rule maps to an image path of its own is listed by the overlay.",
  "every host tree and rule list", "Needs colliding rewrites.",
  [W+"fs/remap.rs: RemapOverlayFilesystem::new, read_dir"])
p("Checksum depends only on contents",
  "The bytes hashed for an image are determined by its set of (path, kind, contents), independent of the tree shape, sector placement and directory order.",
  "all pairs of images with equal contents", "All layouts of equal contents.",
  [R+"checksum.rs: checksum"])
p("Checksum input separates different contents",
  "Two images with different contents feed different byte streams to the hash.",
  "all pairs of images", "Needs a crafted collision of the framing.",
  [R+"checksum.rs: checksum"])
p("Unpacking stays inside the destination",
  "Unpacking an image writes only below the destination directory.",
  "all images", "Needs an adversarial image.",
  ["xdvdfs-cli/src/cmd_unpack.rs: copyout_directory"])
p("Unpacking a packed tree restores it",
  "Unpacking a packed image into an empty directory creates exactly the source files with their bytes and exactly the source directories.",
  "every source tree", "All trees.",
  ["xdvdfs-cli/src/cmd_unpack.rs: copyout_directory, cmd_unpack"])
p("Truncated images are reported when unpacking",
  "Unpacking an image from which file data is missing reports an error.",
  "all truncated images", "All truncation points.",
  ["xdvdfs-cli/src/cmd_unpack.rs: copyout_directory", W+"fs/xdvdfs.rs: StdIOCopier"])
p("extract-xiso -c accepts several sources",
  "-c DIR [FILE] may be repeated; the sources are packed in order, each to its own file.",
  "all argument lists", "All argument lists.",
  ["xdvdfs-cli/src/exiso_compat.rs: exiso_create"])
p("extract-xiso -r never destroys the only copy",
  "At every point of a rewrite, and after any failure, the original image bytes are still in a file, unless the rewrite finished and deletion was requested.",
  "every host file system, argument list, failure and crash point", "Every crash point.",
  ["xdvdfs-cli/src/exiso_compat.rs: exiso_repack"])
p("FUSE inode numbers are stable and unique",
  "Once handed out an inode number always denotes the same entry, different entries have different numbers, and no entry gets number 1 (the root).",
  "every history of lookups and listings", "All histories.",
  ["xdvdfs-fsd/src/img_fs.rs: get_or_assign_inode, lookup_dirent_by_inode"])
p("FUSE directory listing pages are exact",
  "Reading a directory in pages of any sizes, resuming from the last returned offset, returns every entry exactly once and in order.",
  "every directory and every sequence of page sizes with room for at least two records", "All page splits.",
  ["xdvdfs-fsd/src/img_fs.rs: readdir"])
p("FUSE lookup and readdir agree on inode numbers",
  "The inode number listed for a name is the one lookup returns for it.",
  "every image and name", "All images.",
  ["xdvdfs-fsd/src/img_fs.rs: lookup, readdir", R+"read.rs: next_entry, read_dirent"])
p("Buffered output reports the right length",
  "When packing asks a buffered file for its length it gets the length of everything written so far, and the final file equals the one written unbuffered.",
  "every source tree and buffer capacity", "Depends on what is still buffered.",
  [R+"blockdev.rs: impl BlockDeviceWrite for BufWriter<File>", W+"img.rs"])
p("String order is path order",
  "Comparing strings as UTF-8 bytes and as code points gives the same order, so the order in which directories are written and checksummed is by code point.",
  "all strings", "All strings.",
  [W+"fs/mod.rs: PathVec (derived Ord)", R+"checksum.rs"])
p("Packing into a fixed memory buffer",
  "Packing into an in-memory buffer large enough for the image succeeds with the same contents as packing to a file.",
  "every source tree and buffer length", "All lengths.",
  [R+"blockdev.rs: Box<[u8]>", W+"img.rs: create_xdvdfs_image"])
p("Entry information is printed correctly",
  "The info command prints the byte offsets of the children of an entry.",
  "all entries", "Fails only for directories above 64 KiB.",
  ["xdvdfs-cli/src/cmd_info.rs: print_dirent"])
p("A successful pack left a complete image",
  "When the pack command reports success although the output device fails at some point, the output is a complete image of the source.",
  "every source tree and every point of failure", "Needs a device failing at exactly the last buffered write.",
  ["xdvdfs-cli/src/cmd_pack.rs: cmd_pack_path", R+"blockdev.rs: impl BlockDeviceWrite for BufWriter<File>"])
import sys,os
exec(open(os.path.join(os.path.dirname(__file__),"props_more.py")).read()) if os.path.exists(os.path.join(os.path.dirname(__file__),"props_more.py")) else None
with open("/verif/properties.jsonl","w") as f:
    for x in P: f.write(json.dumps(x)+"\n")
print(len(P))
