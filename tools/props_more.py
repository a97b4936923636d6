RM=W+"fs/remap.rs: "
p("Placeholders are replaced by their captures",
  "Building an overlay replaces every placeholder {n} of the rewrite template by capture n of the glob and leaves all other text alone.",
  "all templates and captures", "Needs captures that themselves look like placeholders.",
  [RM+"find_match_indices, RemapOverlayFilesystem::new"])
p("The whole-match template keeps paths",
  "A rule with the rewrite template {0} maps every matched path to itself.",
  "all paths", "Fails only for names with leading dots.",
  [RM+"RemapOverlayFilesystem::new"])
p("Which rule decides about a path",
  "A path is mapped by the first matching positive rule after the last matching negated rule, applied to the longest prefix of the path that any rule matches; the rest of the path is appended. Without such a rule it is not mapped. The outcome is unique.",
  "all rule lists and paths", "All interleavings of positive and negated rules.",
  [RM+"RemapOverlayFilesystem::new"])
p("Packing an overlay",
  "Packing a remap overlay over a host directory gives an image from which exactly the mapped files can be read, at their image paths and with the bytes of their host files.",
  "every host tree, rule list and glob matcher", "All rule lists and trees.",
  [RM+"RemapOverlayFilesystem", W+"img.rs: create_xdvdfs_image"])
p("Building an overlay reports errors",
  "Building an overlay over a readable host directory always ends; it fails only for an invalid pattern or template, and never panics.",
  "every host tree, rule list and glob matcher", "Needs names outside Latin-1.",
  [RM+"RemapOverlayFilesystem::new", W+"fs/mod.rs: PathPrefixTree"])
p("Overlay dump reports the mapping",
  "The dump of an overlay lists exactly the pairs of host path and image path that are visible in the overlay, without the synthesized directories, and never panics.",
  "every host tree and rule list", "All trees.",
  [RM+"RemapOverlayFilesystem::dump"])
p("ls prints the names of a directory",
  "The ls command prints the names of the selected directory, each exactly once, when walking any well-formed image and when scanning a packed image.",
  "every image, in every disc layout, and every path spelling", "All trees and images of other tools.",
  ["xdvdfs-cli/src/cmd_read.rs: cmd_ls"])
p("tree prints every entry and the totals",
  "The tree command prints one line per entry with its path and size, and a last line with the number of files and the sum of their sizes.",
  "every well-formed image", "All trees.",
  ["xdvdfs-cli/src/cmd_read.rs: cmd_tree"])
p("md5 prints the checksum of every file",
  "The md5 command prints, for the file given, for every file below the directory given or for every file of the image, its MD5 checksum and a path leading to it, and nothing else.",
  "every packed image and path", "All trees.",
  ["xdvdfs-cli/src/cmd_md5.rs: md5_file_tree, md5_from_file_path"])
p("checksum prints one line per image",
  "The checksum command prints for every image, in the order given, a checksum that depends only on the tree in the image, and its name.",
  "every list of well-formed images", "All images of the same tree.",
  ["xdvdfs-cli/src/cmd_read.rs: cmd_checksum, checksum_single", "xdvdfs-core/src/checksum.rs: checksum"])
p("copy-out copies exactly what is selected",
  "Copying a file out writes exactly its bytes to the destination and changes nothing else; copying a directory out to a free place creates exactly the tree below it there and changes nothing else but the directories leading to the destination.",
  "every well-formed image, path and host file system", "All trees and paths.",
  ["xdvdfs-cli/src/cmd_unpack.rs: cmd_copyout, copyout_directory"])
EX = "xdvdfs-cli/src/exiso_compat.rs: "
p("extract-xiso -r -d writes into the directory",
  "Rewriting an image with -d DIR leaves the new image in the directory DIR, under the name of the original.",
  "every host file system, image and directory", "All paths.",
  [EX+"exiso_repack"])
p("pack leaves its source alone",
  "Packing changes at most one file, the output; it never changes the image or anything in the directory that is being packed, whether or not it succeeds.",
  "every host file system, working directory, source and output path, and every behaviour of packing itself",
  "All ways of spelling two paths to the same place.",
  ["xdvdfs-cli/src/cmd_pack.rs: cmd_pack, cmd_pack_path, get_default_image_path", "xdvdfs-cli/src/img.rs: absolute_path, with_extension"])
p("extract-xiso -r preserves contents",
  "Rewriting an image that was produced by packing, with names below U+0100, moves its bytes to the .old name and puts an image of the same tree in its place, changing nothing else; the only error that can occur is a directory table that becomes too large.",
  "every packed image and host file system in which no call fails", "All trees.",
  [EX+"exiso_repack", "xdvdfs-cli/src/cmd_pack.rs: cmd_pack_path"])
FU = "xdvdfs-fsd/src/img_fs.rs: "
p("The mounted tree is the tree of the image",
  "On a mounted image, looking up the components of a path one after the other leads to the entry at that path: its kind and size are reported, and reading a range inside a file returns its bytes.",
  "every well-formed image, path and range, and every history of other requests", "All histories of requests.",
  [FU+"lookup, getattr, read, get_or_assign_inode"])
p("FUSE reports missing names as missing",
  "Looking up a name that is not in the directory is answered by ENOENT.",
  "every well-formed image and name", "All names.",
  [FU+"lookup"])
p("FUSE reads stop at the end of the file",
  "A read that goes beyond the end of a file returns the bytes up to the end; a read at or beyond the end returns nothing.",
  "every well-formed image, file and range", "All ranges.",
  [FU+"read", "xdvdfs-core/src/layout.rs: read_data_offset"])
p("pack of a host directory",
  "Packing a directory of the host succeeds exactly if its tree is representable, and then leaves a single new or replaced file, the output, that holds an image of that tree; without an output path it is the directory's name with the extension xiso.iso, beside it.",
  "every host file system with readable files, working directory and path, and every order in which the host lists directories",
  "All trees, listings and path spellings.",
  ["xdvdfs-cli/src/cmd_pack.rs: cmd_pack, cmd_pack_path, get_default_image_path", "xdvdfs-core/src/write/fs/stdfs.rs: StdFilesystem"])
p("pack and unpack are inverse",
  "Packing a host directory and unpacking the image elsewhere gives an exact copy of the directory and leaves the directory as it was.",
  "every host directory that is representable with names below U+0100 and without slashes", "All trees.",
  ["xdvdfs-cli/src/cmd_pack.rs: cmd_pack", "xdvdfs-cli/src/cmd_unpack.rs: cmd_unpack"])
BI = "xdvdfs-cli/src/cmd_build_image.rs: "
p("-m gives map rules",
  "Every map rule HOST = IMAGE of a spec can be given as -m HOST:IMAGE, and every accepted -m argument means the rule it spells; an argument without a colon is refused unless it excludes.",
  "every argument", "All texts.",
  [BI+"cmd_build_image (map_rules loop), cmd_image_spec, deserialize_overlay_config"])
p("A spec and the options it was made from are equivalent",
  "build-image with options -m and -O does the same as build-image with the spec that image-spec from writes for these options.",
  "every list of rules, output, source and image path and host file system", "All combinations.",
  [BI+"cmd_build_image, cmd_image_spec"])
p("Where build-image puts the image",
  "The image goes to the image path if there is one, otherwise to the output field relative to the source directory, otherwise beside the source directory with the extension xiso.iso; a spec file can be named instead of its directory.",
  "every host file system, working directory and spelling of the paths", "All path spellings.",
  [BI+"cmd_build_image", "xdvdfs-cli/src/img.rs: with_extension"])
p("build-image changes at most one file",
  "build-image changes at most one file and never a directory; a dry run changes nothing, and neither does a run whose spec, rules or source are refused.",
  "every host file system, arguments and behaviour of the packer", "All failures.",
  [BI+"cmd_build_image"])
p("build-image end to end",
  "A successful run leaves at the image path an image of the tree that the map rules make of the source directory, and changes nothing else.",
  "every host directory, rules, glob matcher and listing order; the image outside of the source or a new file",
  "All trees and rules.",
  [BI+"cmd_build_image", "xdvdfs-core/src/write/fs/remap.rs: RemapOverlayFilesystem", "xdvdfs-core/src/write/fs/stdfs.rs"])
p("build-image leaves its source alone",
  "build-image never changes a file of the source directory that existed before.",
  "every host file system and arguments", "All paths.",
  [BI+"cmd_build_image"])
DK = "xdvdfs-desktop/src/"
WB = "xdvdfs-web/src/"
p("The desktop application reports failures",
  "A command of the desktop application that does not do its work is answered with an error, so that the page does not show success.",
  "every host file system, source, destination and failure", "All failures.",
  [DK+"pack.rs: pack_image", DK+"unpack.rs: unpack_image", DK+"compress.rs: compress_image", WB+"ops/tauri.rs"])
p("The desktop application packs directories",
  "Packing a host directory succeeds, writes an image of its tree to the chosen file and changes nothing else.",
  "every representable host directory, listing order and output outside of the directory", "All trees.",
  [DK+"pack.rs: pack_image"])
p("The desktop application leaves the source of packing alone",
  "Packing changes at most the chosen output file, and never the source.",
  "every host file system, source, destination and behaviour of the packer", "All paths and failures.",
  [DK+"pack.rs: pack_image"])
p("The desktop application unpacks like the command",
  "Unpacking in the desktop application has the same effect on the host as xdvdfs unpack; in particular it restores the tree in the image.",
  "every image and host file system", "All images.",
  [DK+"unpack.rs: unpack_image", "xdvdfs-cli/src/cmd_unpack.rs: cmd_unpack"])
p("The packing page never breaks",
  "Whatever the user chooses and whatever the running job reports, the page for packing does not panic, runs at most one job, and disables its buttons while a job runs.",
  "every history of user actions that the page offers and of messages from jobs", "All histories.",
  [WB+"packing.rs: ImageBuilderWorkflow (update, view, reset_state)"])
p("The unpacking page never breaks",
  "Whatever the user chooses and whatever the running job reports, the page for unpacking does not panic and runs at most one job.",
  "every history of user actions that the page offers and of messages from jobs", "All histories.",
  [WB+"unpacking.rs: ImageUnpackingWorkflow (update, view, reset_state)"])
p("The compression page never breaks",
  "Whatever the user chooses and whatever the running job reports, the page for compressing does not panic and runs at most one job.",
  "every history of user actions that the page offers and of messages from jobs", "All histories.",
  [WB+"compress.rs: ImageBuilderWorkflow (update, view, reset_state)"])
p("The progress of packing is complete",
  "When packing has succeeded, the page shows as many packed files as files to pack, namely one for every entry of the source tree.",
  "every source tree, file system presenting it and previous state of the page", "All trees.",
  [WB+"packing.rs: update", "xdvdfs-core/src/write/img.rs: create_xdvdfs_image"])
p("Packing in the browser gives the image of the command line tool",
  "Packing a directory or an image in the browser gives, up to zeros at the end, the image that xdvdfs pack gives for the same entries in the order of their names (for an image, in its order), and everything can be read back from it; when it fails, the output file keeps its bytes, and without a lack of space it fails only for trees that cannot be represented.",
  "every source tree, listing order, storage quota and previous contents of the output file", "All trees and quotas.",
  [WB+"fs/mod.rs: FSWriteWrapper, FSTree, WebFileSystem", WB+"ops/browser.rs: pack_image, pack_image_impl", "xdvdfs-core/src/write/img.rs: create_xdvdfs_image"])
p("Packing in the browser does not depend on the listing order",
  "Two listings of the same directory tree, in whatever order, are packed to the same bytes.",
  "every pair of trees that differ in the order of entries only", "All permutations at every level.",
  [WB+"fs/mod.rs: FSTree::populate, WebFileSystem"])
p("Compressing in the browser reads the packed image",
  "Every sector that the compressor asks for in the browser is that sector of the image which packing the same entries in the order of their names gives, and the sizes agree.",
  "every source tree and sector number", "All trees and sectors.",
  [WB+"fs/mod.rs: FilesystemCopier<[u8]>", WB+"ops/browser.rs: compress_image", "xdvdfs-core/src/write/fs/sector_linear.rs"])
p("Unpacking in the browser restores the tree",
  "Unpacking an image into a directory in the browser succeeds only if afterwards the directory holds the tree of the image, with exact contents, and everything else as before.",
  "every image and previous contents of the directory", "All images.",
  [WB+"ops/browser.rs: unpack_image", WB+"fs/util.rs: create_directory, create_file"])
p("Unpacking in the browser stays in the chosen directory",
  "Whatever bytes are given as an image and whichever operation fails, unpacking in the browser changes only entries below the chosen directory, and no existing directory or file disappears.",
  "every file, destination, rule for names and point of failure", "Untrusted input, all bytes.",
  [WB+"ops/browser.rs: unpack_image", WB+"fs/util.rs: create_directory, create_file"])
p("The progress of unpacking is complete",
  "When unpacking in the browser has succeeded, as many entries have been reported as were announced, namely the number of entries in the image.",
  "every image", "All images.",
  [WB+"ops/browser.rs: unpack_image"])
p("Failures of the host are not hidden",
  "A command that reports success has done exactly what it does on a host where no call fails; in particular, when unpack reports success the tree has been restored completely.",
  "every command line, host file system, image and point at which calls start to fail", "All points of failure, including partial writes.",
  ["xdvdfs-cli/src/cmd_unpack.rs: cmd_unpack, cmd_copyout", "xdvdfs-cli/src/cmd_pack.rs: cmd_pack", "xdvdfs-cli/src/exiso_compat.rs", "xdvdfs-cli/src/cmd_build_image.rs: cmd_build_image", WB+"ops/browser.rs: unpack_image"])
p("Packing from an image file",
  "xdvdfs pack on an image file, whose partition is at any of the supported places, writes an image of the same tree to the output if that is representable and fails otherwise; nothing but the output changes.",
  "every image file whose sector scans show a tree, host file system and output other than the source", "All images and trees.",
  ["xdvdfs-cli/src/cmd_pack.rs: cmd_pack, cmd_pack_path", "xdvdfs-core/src/write/fs/xdvdfs.rs"])
p("The mounted image is read-only",
  "A request to open a file or directory of a mounted image is refused exactly if it asks for write access, creation or truncation.",
  "every set of flags", "All flags.",
  ["xdvdfs-fsd/src/img_fs.rs: open, opendir"])
p("info prints the volume descriptor",
  "Without a path, info prints the creation time and the position and size of the root table as stored in the volume descriptor, and it fails exactly if no supported place holds a descriptor.",
  "every file", "All bytes.",
  ["xdvdfs-cli/src/cmd_info.rs: cmd_info, print_volume"])
p("Unpacking leaves the image alone",
  "Unpacking never changes the image it unpacks, and every file gets the bytes that the image held before; in particular an image is restored completely into a free place.",
  "every image file on the host, destination and point of failure", "All relative positions of the image and the destination.",
  ["xdvdfs-cli/src/cmd_unpack.rs: cmd_unpack, copyout_directory"])
p("extract-xiso -x extracts every image",
  "-x with several images extracts each of them completely into the directory named after it in the working directory, and changes nothing else.",
  "every list of images and host file system in which these directories do not exist yet", "All lists of images.",
  ["xdvdfs-cli/src/exiso_compat.rs: exiso_extract", "xdvdfs-cli/src/cmd_unpack.rs: cmd_unpack"])
p("extract-xiso -l lists every image",
  "-l prints for every image, in the order given, a line for each entry with path and size, and the totals.",
  "every list of images", "All lists of images.",
  ["xdvdfs-cli/src/exiso_compat.rs: exiso_list", "xdvdfs-cli/src/cmd_read.rs: cmd_tree"])
p("compress keeps its output out of the source",
  "compress refuses an output that is the source or lies inside the source directory, before anything is written.",
  "every spelling of the two paths, working directory and host file system", "All spellings.",
  ["xdvdfs-cli/src/cmd_compress.rs: cmd_compress", "xdvdfs-cli/src/img.rs: absolute_path"])
p("compress does not panic on its arguments",
  "For every existing source and with or without an output, compress does not panic before compressing; without an output, the image is named after the source.",
  "every spelling of the source, working directory and host file system", "All paths.",
  ["xdvdfs-cli/src/cmd_compress.rs: cmd_compress, get_default_image_path", "xdvdfs-cli/src/img.rs: with_extension"])
p("All parts of a compressed image are opened",
  "Given NAME.1.cso, the files NAME.1.cso, NAME.2.cso, ... are opened in this order up to the first number that does not exist; it is an error if there is none.",
  "every name and host file system", "All numbers of parts.",
  ["xdvdfs-cli/src/img.rs: open_image"])
p("A host directory is presented as it is",
  "The file system over a host directory lists exactly the entries of a directory with their kinds and the lengths of files and fails for anything else; copying takes the requested bytes of a file, as many as there are, to the requested place and changes no other byte.",
  "every host file system, path, offset and size", "All offsets and sizes; packing only ever copies whole files.",
  ["xdvdfs-core/src/write/fs/stdfs.rs: read_dir, copy_file_in"])
p("Specs that cannot be used are refused",
  "build-image with a spec that is no TOML or that has a rule which is not a string fails without changing anything.",
  "every spec, set of arguments and host file system", "All specs and arguments.",
  ["xdvdfs-cli/src/cmd_build_image.rs: cmd_build_image, deserialize_overlay_config"])
p("The progress of compression is shown correctly",
  "While sectors are compressed the page shows how many are done (the desktop application in steps of 739), the percentage never decreases nor exceeds 100, and it ends at 100.",
  "every number of sectors and point in time", "All numbers of sectors.",
  [DK+"compress.rs: compress_image", WB+"ops/browser.rs: compress_image_impl", WB+"compress.rs: update, view"])
FD="xdvdfs-fsd/src/"
p("Mount options are passed on as given",
  "The options of all -o arguments, separated by commas, are passed to the mount in their order; the source path and the type xdvdfs are added unless given; fork and nofork decide by the last one whether the program goes to the background; an unknown option is an error.",
  "every list of option arguments and source path", "All lists of options.",
  [FD+"main.rs: convert_fuse_mount_opts"])
p("The exit status of mounting tells the truth",
  "The mount program exits with status 0 exactly if the image has been mounted.",
  "every file, list of options and behaviour of the system", "All files and options; failure of the system.",
  [FD+"main.rs: mount_image_file, run_mount_program, main", FD+"daemonize.rs: daemonize, Daemonize"])
p("The mount program does not panic on its arguments",
  "For every source, mount point and list of options the mount program succeeds or ends with an error, but does not panic.",
  "every command line and host file system", "All kinds of sources.",
  [FD+"main.rs: run_mount_program, mount_pack_overlay"])
p("Attributes of mounted entries are usable",
  "Every entry of a mounted image is read-only, its block count covers its size in the unit of POSIX (512 bytes), and directories can be searched by the user who mounted it under all supported options.",
  "every image, sequence of requests and entry", "All sizes.",
  [FD+"img_fs.rs: new_file_attr", FD+"fs_wrapper.rs", FD+"main.rs: convert_fuse_mount_opts"])
p("Unpacking does not need duplicated handles",
  "If the handle of the image cannot be duplicated for some files, so that they are copied the slow way, unpacking a complete image has exactly the same result; a success never means less than without the slow way, and if all files are copied the slow way, missing data is reported.",
  "every image, also untrusted, host file system, failure, and choice of the files copied the slow way", "Duplicating a handle does not fail in tests.",
  ["xdvdfs-cli/src/cmd_unpack.rs: copyout_directory, cmd_unpack, cmd_copyout"])
p("copy-out leaves the image alone",
  "copy-out writes the selected file or directory and changes nothing else; in particular the image remains as it is.",
  "every image, selection, destination, host file system and failure", "All destinations, also the image itself.",
  ["xdvdfs-cli/src/cmd_unpack.rs: cmd_copyout"])
p("Endless traversals are exactly the circular ones",
  "A lookup returns exactly if its own search never comes back to an entry; listing a table returns if no entry is its own descendant, listing a tree if moreover no directory contains itself. A listing that succeeds met no cycle, and shows exactly the entries that can be reached from the first one.",
  "every device, also untrusted, every table and path", "All graphs of pointers.",
  ["xdvdfs-core/src/read.rs: find_dirent, walk_path, walk_dirent_tree, file_tree"])
p("The sector scan lists consecutive records",
  "Scanning a table lists, sector by sector, the records that lie one behind the other from the beginning of the sector up to the first blank record or the end of the sector; it fails at the first sector that cannot be read and panics exactly at a record whose name crosses the end of its sector.",
  "every device, also untrusted, and table", "All contents of a sector.",
  ["xdvdfs-core/src/read.rs: scan_dirent_tree, DirentScanIter"])
p("Repacking keeps everything, whoever wrote the image",
  "Packing from a well-formed image of any origin gives an image with exactly the files that can be reached in the source.",
  "every well-formed image with names below U+0100", "Images of other programs, with gaps or old records in their tables.",
  ["xdvdfs-core/src/write/fs/xdvdfs.rs: read_dir", "xdvdfs-core/src/read.rs: scan_dirent_tree"])
p("A mounted directory lists what can be looked up",
  "Reading a directory of a mounted well-formed image of any origin lists exactly the names that lookups find in it.",
  "every well-formed image, directory and sequence of requests", "Images of other programs, with gaps or old records in their tables.",
  ["xdvdfs-fsd/src/img_fs.rs: readdir, lookup", "xdvdfs-core/src/read.rs: scan_dirent_tree"])
p("Read errors are never taken for data",
  "If some reads of a device fail, looking up a path, listing a directory or a tree, reading data and the checksum give what they give without the failures, or report an I/O error; also results such as 'does not exist' are right. Reading the volume gives the right volume or an invalid volume. A truncated file is such a device.",
  "all devices, also untrusted, and all sets of failing reads", "Every possible pattern of failing reads.",
  ["xdvdfs-core/src/read.rs", "xdvdfs-core/src/layout.rs: read_data, read_data_all, read_data_offset", "xdvdfs-core/src/checksum.rs: checksum"])
p("Truncated images are never read as something else",
  "For a truncated image file, ls, tree, info, md5 and checksum print what they print for the whole file, or the first lines of that followed by an error.",
  "all files and lengths", "All truncation points; discs with more than one partition.",
  ["xdvdfs-core/src/blockdev.rs: OffsetWrapper::new", "xdvdfs-cli/src/cmd_read.rs", "xdvdfs-cli/src/cmd_md5.rs", "xdvdfs-cli/src/cmd_info.rs"])
p("Data after an image does not matter",
  "If a command that reads an image does not end with an I/O error, it prints the same with any data appended to the file.",
  "all files with a partition at the start, or long enough for all places of a partition", "All images and appended data.",
  ["xdvdfs-core/src/blockdev.rs: OffsetWrapper::new", "xdvdfs-cli/src/cmd_read.rs", "xdvdfs-cli/src/cmd_md5.rs", "xdvdfs-cli/src/cmd_info.rs"])
p("Packing from a failing or truncated source is reported",
  "If packing succeeds from a source some of whose reads fail, the image is the one that is packed without the failures. A truncated image file is such a source.",
  "all sources, images, output devices and sets of failing reads", "All truncation points and failures.",
  ["xdvdfs-core/src/write/img.rs: create_xdvdfs_image", "xdvdfs-core/src/write/fs/xdvdfs.rs: RWCopier, StdIOCopier", "xdvdfs-cli/src/cmd_pack.rs"])
p("The place of the partition does not matter",
  "At whichever supported place of a file the partition is found, ls, tree, info, md5 and checksum print what they print for a file with just the partition.",
  "all partitions and all data around them", "Images of several gigabytes.",
  ["xdvdfs-core/src/blockdev.rs: OffsetWrapper", "xdvdfs-cli/src/img.rs: open_image_raw"])
p("Commands do not panic on untrusted images",
  "Whatever the file contains, ls, tree, info, md5, checksum, unpack and copy-out end with a result or an error and never panic.",
  "all files, untrusted or corrupt, and all arguments", "All contents of a file.",
  ["xdvdfs-cli/src/cmd_read.rs", "xdvdfs-cli/src/cmd_md5.rs", "xdvdfs-cli/src/cmd_info.rs", "xdvdfs-cli/src/cmd_unpack.rs", "xdvdfs-core/src/layout.rs: walk_path"])
p("Commands end on every image without cycles",
  "tree, checksum, md5 and unpack end on every file whose root directory has no cycle; ls, info, md5 and copy-out with a path end if the search for the path does not run in circles and what it selects has no cycle. Nothing else is assumed of the image.",
  "all files, untrusted or corrupt, without cycles", "All shapes of tables, also unbalanced, overlapping or with pointers backwards.",
  ["xdvdfs-cli/src/cmd_read.rs", "xdvdfs-cli/src/cmd_md5.rs", "xdvdfs-cli/src/cmd_info.rs", "xdvdfs-cli/src/cmd_unpack.rs", "xdvdfs-core/src/layout.rs: walk_path", "xdvdfs-core/src/read.rs: file_tree, walk_dirent_tree"])
p("Packing replaces what was in the output",
  "Packing onto a file that is not empty gives an image of the source tree whenever packing onto an empty file does; every byte of the file is the one of that image or is left as it was.",
  "all source trees and all old contents", "All old contents, such as images of other trees.",
  ["xdvdfs-core/src/write/img.rs: create_xdvdfs_image", "xdvdfs-core/src/blockdev.rs: BlockDeviceWrite for File"])
p("A partition can be packed in its place",
  "Packing into the partition of a larger file (OffsetWrapper) leaves everything in front of the partition alone, gives an image of the tree in the partition, and does not lengthen the file if the new image is not longer than the old one and needs no padding.",
  "all trees, files and places of the partition", "Files of several gigabytes.",
  ["xdvdfs-core/src/blockdev.rs: BlockDeviceWrite for OffsetWrapper", "xdvdfs-core/src/write/img.rs: create_xdvdfs_image"])
p("Positions of a partition are relative to it",
  "Seeking in the partition of a larger file (OffsetWrapper) counts from its start, and the position that is returned can be used to come back.",
  "all files, positions and places of the partition", "Files of several gigabytes.",
  ["xdvdfs-core/src/blockdev.rs: Seek for OffsetWrapper"])
p("The exit status tells whether the command succeeded",
  "xdvdfs and extract-xiso exit with 0 exactly if the command succeeds and with 1 exactly if it reports an error, which is printed unless -q or -Q is given. A process that exits with 0 met no failure of the host. ls, tree, md5, checksum, info and -l change no file. -q and -Q change neither the status nor what is done. extract-xiso without a mode is -x.",
  "all commands, arguments, file systems and failures of the host", "All failures at all points of all commands.",
  ["xdvdfs-cli/src/main.rs: main, run_xdvdfs_program, run_command", "xdvdfs-cli/src/exiso_compat.rs: run_exiso_program, run_exiso_command"])
p("Programs from end to end",
  "On files of the host: checksum and -l print the results for each image in order and stop at the first that is none, with exit status 1; unpack restores the tree and exits with 0; pack followed by unpack gives a copy of the source directory, and both exit with 0.",
  "all directory trees, file systems, images and numbers of images", "All trees and file systems.",
  ["xdvdfs-cli/src/main.rs", "xdvdfs-cli/src/cmd_read.rs: cmd_checksum", "xdvdfs-cli/src/cmd_pack.rs", "xdvdfs-cli/src/cmd_unpack.rs", "xdvdfs-cli/src/exiso_compat.rs: exiso_list"])
p("Messages tell errors apart",
  "Two errors with the same message are the same error, with the same details, for every error type of xdvdfs-core, if this holds for the errors of the device, of bincode and of wax. The message of an error ends in the message of its cause.",
  "all errors and all texts inside them", "Messages contain arbitrary text of the user.",
  ["xdvdfs-core/src/util.rs: Error", "xdvdfs-core/src/write/mod.rs: WriteError, FileStructureError", "xdvdfs-core/src/write/fs/xdvdfs.rs: XDVDFSFilesystemError", "xdvdfs-core/src/write/fs/remap.rs: RemapOverlayFilesystemBuildingError, RemapOverlayError"])
p("Where a rule puts a file",
  "The image path of a host path that a map rule matches is: the rewrite template with the captures filled in, without the dots at its start, split at slashes (empty names do not count), followed by the part of the host path below the matched directory. A pattern is compared with the names of the host path with slashes in between, without one at the start.",
  "all templates, captures and host paths", "All templates, with empty names, dots and slashes anywhere.",
  ["xdvdfs-core/src/write/fs/remap.rs: RemapOverlayFilesystem::new", "xdvdfs-core/src/write/fs/mod.rs: PathVec"])
p("Images built with rules unpack below the destination",
  "Whatever the map rules are, an overlay of a Unix directory has no empty names and no names with slashes, and unpacking an image built from it changes nothing outside of the destination, also if the rules have .. in their targets.",
  "all directory trees, rules, file systems and failures of the host", "All rules.",
  ["xdvdfs-core/src/write/fs/remap.rs: RemapOverlayFilesystem::new", "xdvdfs-cli/src/cmd_unpack.rs: copyout_directory"])
p("Images built with rules can be unpacked",
  "Unpacking an image that was built from a Unix directory with map rules restores what the rules describe.",
  "all directory trees, rules and destinations", "All rules.",
  ["xdvdfs-core/src/write/fs/remap.rs: RemapOverlayFilesystem::new", "xdvdfs-cli/src/cmd_unpack.rs: copyout_directory"])
p("Operations on paths",
  "For PathVec: the base of a path extended by a name is the path, and the root has none (a panic). The suffix of a path after a prefix is the rest, the root if the path is itself a prefix of the given one, and a panic otherwise. The text of a path is a slash and the names with slashes in between; for names without slashes it determines the path. The host path made from a prefix and a path denotes the place below the prefix.",
  "all paths, names and prefixes", "All paths.",
  ["xdvdfs-core/src/write/fs/mod.rs: PathVec"])
p("Files that are no images are refused without a change",
  "A command that is given a file that is no image fails and changes no file.",
  "all files without a volume, commands, file systems and destinations", "All files that are no images, and all states of the host.",
  ["xdvdfs-cli/src/cmd_pack.rs: cmd_pack_path", "xdvdfs-cli/src/exiso_compat.rs: exiso_repack, exiso_extract", "xdvdfs-cli/src/cmd_unpack.rs", "xdvdfs-web/src/ops/browser.rs: pack_image"])
p("Packing leaves nothing out",
  "If an image is created, then every directory that is seen from the root could be listed and every file could be copied: there is no entry that is skipped because of an error. A directory of the host that contains a symbolic link, a device, a socket, a name that is not UTF-8, or something that cannot be read is refused; otherwise, the image has all that it contains.",
  "all file systems, devices, directory trees and special files", "Directories with any contents at any depth.",
  ["xdvdfs-core/src/write/img.rs: create_xdvdfs_image, dir_tree", "xdvdfs-core/src/write/fs/stdfs.rs: read_dir, copy_file_in"])
p("The checksum survives writing an image again",
  "After a successful `xdvdfs pack A B` from an image A, `xdvdfs checksum A B` prints the same checksum twice; a successful extract-xiso -r does not change what `checksum` prints for the image; and after `unpack A D` and a successful `pack D B`, in whatever order the host lists the directories, `checksum A B` prints the same checksum twice. For the first two, the tables of the image have no gaps and no stale records (as all that this library packs), otherwise C120 applies.",
  "all images, hash functions, hosts, destinations, working directories and listing orders", "All images, and sequences of three processes.",
  ["xdvdfs-core/src/checksum.rs: checksum", "xdvdfs-cli/src/cmd_read.rs: cmd_checksum", "xdvdfs-cli/src/cmd_pack.rs", "xdvdfs-cli/src/cmd_unpack.rs", "xdvdfs-cli/src/exiso_compat.rs: exiso_repack"])
p("The page learns how a job ends",
  "Each job of the graphical interface (pack, compress, unpack; in the browser or through a command of the desktop application) sends reports and then exactly one message about its end, as the last one: the page then shows success if the job succeeded (the command answered with nothing) and otherwise the text of the failure. Until then nothing can be clicked on the page for packing.",
  "all jobs, reports, results and states of the page", "All sequences of messages and all results.",
  ["xdvdfs-web/src/ops/browser.rs", "xdvdfs-web/src/ops/tauri.rs", "xdvdfs-web/src/packing.rs: update", "xdvdfs-web/src/compress.rs: update", "xdvdfs-web/src/unpacking.rs: update"])
p("The percentage is right",
  "The pages show 100 times what is done, divided by what there is to do, rounded down (0 if there is nothing to do).",
  "all numbers of files and sectors", "Numbers that are out of reach of tests.",
  ["xdvdfs-web/src/packing.rs: view", "xdvdfs-web/src/compress.rs: view", "xdvdfs-web/src/unpacking.rs: view"])
p("Lookups read few entries",
  "A lookup in an image made by this library reads, for each component of the path, at most k directory entries, where k is about 1.44 times the binary logarithm of the number of entries (the Fibonacci number of k + 3 exceeds the number of entries plus one), and never more than 19. In a well-formed directory of another origin, it reads at most as many as the depth of its tree.",
  "all directory trees, images and paths, whether they exist or not", "All sizes and shapes of directories and all paths.",
  ["xdvdfs-core/src/read.rs: find_dirent, walk_path", "xdvdfs-core/src/write/avl.rs", "xdvdfs-core/src/write/dirtab.rs: disk_repr"])
p("Debug and release builds write the same image",
  "For every file system and every device, packing in a debug build (with overflow checks) either panics because of an overflow or gives the same result, the same reports and the same bytes as in a release build. For directory trees with files below 4 GiB, the panic does not occur: both builds write the same image.",
  "all file systems, devices, states and directory trees", "Both builds, on all inputs.",
  ["xdvdfs-core/src/write/img.rs: create_xdvdfs_image", "xdvdfs-core/src/write/sector.rs", "xdvdfs-core/src/write/dirtab.rs"])
p("Packing is reproducible",
  "Packing the same directory tree gives the same bytes, whatever the file system that presents it, the order of its listings, the progress reports and the build; in particular there are no times and nothing from the host in the image. Packing an image that was made by this library again does not change it.",
  "all directory trees, file systems and builds", "All listing orders, and two independent runs.",
  ["xdvdfs-core/src/write/img.rs: create_xdvdfs_image, dir_tree", "xdvdfs-core/src/write/avl.rs", "xdvdfs-core/src/write/fs/stdfs.rs: read_dir"])
p("An image does not unpack to more than it contains",
  "The data of all files of an image, and 16 bytes for each of its entries, take less space than the image itself: unpacking writes at most as many bytes as the image has.",
  "all images and directory trees", "All images, including those made to exhaust the disk.",
  ["xdvdfs-core/src/read.rs: file_tree", "xdvdfs-cli/src/cmd_unpack.rs: cmd_unpack", "xdvdfs-core/src/write/img.rs: create_xdvdfs_image"])
p("Directory listings in pages of any size",
  "A directory of a mounted image can be read in pages of any size, as long as each has room for one record: every request is answered, and the pages together give '.', '..' and each entry once.",
  "all directory trees, images, directories, offsets and sizes of pages", "All sizes of buffers of the kernel, and all other requests in between.",
  ["xdvdfs-fsd/src/img_fs.rs: readdir"])
p("extract-xiso and copy-out from end to end",
  "As processes on files of the host: extract-xiso -r exits with 0 and leaves, at the place of every image, a packed image of its tree; the originals are beside them with the extension .old, or with -D gone. If it does not exit with 0, the image is still there under its old or its new name. -x exits with 0 and restores the tree of every image, -c packs every directory, and -c followed by -x gives a copy that equals the source. copy-out restores the directory that was selected. Nothing else on the host changes.",
  "all hosts, images, directory trees and lists of arguments", "All sequences of two processes and all hosts.",
  ["xdvdfs-cli/src/main.rs: main", "xdvdfs-cli/src/exiso_compat.rs", "xdvdfs-cli/src/cmd_pack.rs: cmd_pack_path", "xdvdfs-cli/src/cmd_unpack.rs"])
p("Dialogs do not confuse a page",
  "Opening a dialog for the input or the output, and choosing something in it later, has the same effect as choosing it at once: the page never runs two jobs, keeps an input of the kind that it shows, and does not panic. Leaving a dialog without a choice changes nothing.",
  "all sequences of clicks, choices and messages of jobs", "All interleavings of dialogs, clicks and jobs.",
  ["xdvdfs-web/src/picker/mod.rs: update", "xdvdfs-web/src/picker/browser.rs", "xdvdfs-web/src/picker/tauri.rs", "xdvdfs-web/src/packing.rs: view, update", "xdvdfs-web/src/compress.rs: view, update", "xdvdfs-web/src/unpacking.rs: view, update"])
p("A source that changes while it is packed",
  "Packing a directory that other programs change meanwhile fails, or gives an image of what was listed, with the contents that the files had when they were opened, in the size that was listed: larger files are cut off, shorter ones are filled up with zeros, and no file spills into another. Everything in the image can be read.",
  "all directories, and all changes between listing and copying", "All interleavings of packing with changes of the source.",
  ["xdvdfs-core/src/write/img.rs: create_xdvdfs_image, dir_tree", "xdvdfs-core/src/write/fs/stdfs.rs: copy_file_in, read_dir"])
p("Packing or building again gives the same image",
  "Running pack or build-image a second time with the same arguments on an unchanged source ends as the first run did and leaves the host as the first run did: the image of the first run is replaced by an equal one.",
  "all hosts, sources, rules and working directories", "All sources and rules, and two runs.",
  ["xdvdfs-cli/src/cmd_pack.rs: cmd_pack, cmd_pack_path", "xdvdfs-cli/src/cmd_build_image.rs: cmd_build_image", "xdvdfs-core/src/write/fs/remap.rs: new, read_dir"])
p("Reading into a buffer gives the beginning of the file",
  "read_data fills a buffer of the caller with the beginning of the file, never with anything behind its end; the buffer keeps its length, and an empty file leaves it as it is.",
  "all images, entries and buffers", "All sizes of buffers, also larger than the file.",
  ["xdvdfs-core/src/layout.rs: read_data, read_data_all"])
p("The first entry of an image",
  "root_dirent of an image gives an entry of its root directory, the one that the table starts with, with the kind and the contents of that entry; it gives none, or the error for an empty directory, exactly if the root directory is empty.",
  "all devices and directory trees", "All tables and tree shapes.",
  ["xdvdfs-core/src/read.rs: root_dirent, read_dirent"])
p("Unpacking over something that is already there",
  "Unpacking an image to a place where there is something already, for example an earlier copy, replaces the files that have the same names and leaves everything else as it was. If it succeeds, everything in the image is there as it is in the image, however much room was left on the host.",
  "all hosts, images, directory trees and destinations", "All earlier contents of the destination and all moments at which the host fails.",
  ["xdvdfs-cli/src/cmd_unpack.rs: cmd_unpack, copyout_directory"])
p("Reading does not depend on the width of machine words",
  "On a platform with 32-bit addresses, as in the browser, reading an image gives what it gives on a 64-bit platform: the same entries, data, checksums and totals, and errors where it gives errors.",
  "all images in memory, tables, entries and builds", "Tests run on 64-bit platforms; overflow needs sectors and sizes near the limits.",
  ["xdvdfs-core/src/blockdev.rs: read for [u8]", "xdvdfs-core/src/layout.rs: read_data_all", "xdvdfs-core/src/read.rs: scan_dirent_tree", "xdvdfs-core/src/checksum.rs: checksum", "xdvdfs-cli/src/cmd_read.rs: cmd_tree"])
p("Unpacking on Windows stays inside the destination",
  "On Windows, every path that unpacking creates is the destination followed by the path of an entry in the image: nothing is created beside the destination, in the root of a drive or on another drive, whatever the names in the image are.",
  "all images, destinations, drives and working directories", "Tests do not run on Windows, and all names of hostile images.",
  ["xdvdfs-cli/src/cmd_unpack.rs: copyout_directory"])
p("Failures of the browser while packing reach the page",
  "While a directory is packed in the browser, any call of the browser may fail and any file of the source may change. If the job reports success then the output file holds the image of the files as they were when they were copied; otherwise the output file is unchanged and the page shows an error, and does not wait forever.",
  "all source trees, all patterns of failing calls and changing files, all previous contents of the output",
  "Browsers seldom refuse calls in tests, and not each of them in turn.",
  ["xdvdfs-web/src/fs/mod.rs: FSWriteWrapper::new", "xdvdfs-web/src/fs/mod.rs: FSWriteWrapper::close", "xdvdfs-web/src/fs/mod.rs: WebFileSystem::new", "xdvdfs-web/src/fs/mod.rs: copy_file_in", "xdvdfs-web/src/ops/browser.rs: pack_image_impl"])
p("A mounted image of any origin answers the requests",
  "When any file has been mounted, whatever its bytes, mounting itself and the requests getattr, open, opendir and read are answered with data or an error number after any history of requests: none panics or runs forever. Listing a directory always ends, and is answered unless a name in the table crosses the end of a sector. A lookup is answered exactly if its search does not run in circles.",
  "all image files, all histories of requests, all inode numbers, names, positions and reply sizes",
  "A request that panics or hangs stops the whole mounted file system; only crafted images lead there, and no test mounts any.",
  ["xdvdfs-fsd/src/img_fs.rs: lookup, getattr, open, read, opendir, readdir", "xdvdfs-core/src/read.rs: DirentScanIter::next_entry, find_dirent"])
p("Reading needs little memory",
  "No operation on an image fills a buffer larger than what the caller asked for or the image can justify. Recognising, searching, listing and scanning fill buffers of at most 2048 bytes, whatever the image says; lookups and listings of a mounted image too, and reads of it at most the requested size; copying out of an image 1 MiB. Reading whole files and checksums need no more than the length of the image.",
  "all devices, all tables, paths, requests and sizes",
  "Tests measure results, not the sizes of buffers, and have no image whose records claim absurd sizes.",
  ["xdvdfs-core/src/layout.rs: read_data_all, read_data_offset", "xdvdfs-core/src/read.rs: read_volume, read_dirent, walk_path, walk_dirent_tree, file_tree, DirentScanIter", "xdvdfs-core/src/checksum.rs: checksum", "xdvdfs-core/src/write/fs/xdvdfs.rs: RWCopier::copy", "xdvdfs-fsd/src/img_fs.rs: read, lookup, readdir"])
p("Offsets stay where floating point numbers are exact",
  "Whatever is read of an image of any origin (volume descriptor, searching, listing, scanning, file data) ends below position 2^44, so no offset overflows 64 bits and none is rounded by the browser back end, which passes offsets to the browser as 64-bit floating point numbers. Unpacking, packing a directory, packing an image and laying out for compression give the same in the browser with rounded offsets as with exact ones.",
  "all devices and image files, all trees, tables, paths, quotas and rules for names, both build modes",
  "Rounding begins at 2^53 bytes; no test can have such an image, and only a proof about the fields of the format excludes that small images lead there.",
  ["xdvdfs-web/src/fs/mod.rs: FSWriteWrapper::write", "xdvdfs-web/src/fs/mod.rs: FileSystemFileHandle::read", "xdvdfs-web/src/fs/mod.rs: copy_file_in", "xdvdfs-web/src/ops/browser.rs: unpack_image_impl", "xdvdfs-core/src/layout.rs: DiskRegion::offset"])
p("Reading from devices that change or fail meanwhile",
  "When requests to a device fail now and then, reading gives the right result or reports an I/O error (for the volume descriptor: invalid volume); this holds for lookups, listings, scans, file trees, file data and checksums. When a device gives arbitrary answers that may depend on all earlier requests, nothing panics (paths of slashes only aside), and scanning ends. Every entry that is listed was on the device at some time.",
  "all devices with any state that answer any request in any state with bytes or an error; all tables, paths, entries and offsets",
  "Tests use images that stay as they are; failures between any two requests and changes in between cannot be enumerated.",
  ["xdvdfs-core/src/read.rs: read_volume, root_dirent, read_dirent, find_dirent, walk_path, walk_dirent_tree, file_tree, DirentScanIter", "xdvdfs-core/src/layout.rs: read_data_all, read_data_offset", "xdvdfs-core/src/blockdev.rs: OffsetWrapper::new", "xdvdfs-core/src/checksum.rs: checksum"])
p("Reading makes few requests",
  "Scanning a directory asks the device for every sector of its table once, in their order and with full sectors, and for all of them if it succeeds. Listing n entries takes at most 3n + 1 requests. Looking up a path in a packed image takes at most 38 requests per component. File data takes one request, none if there is no data. Searching for the volume makes one request per candidate, up to the one that is chosen.",
  "all devices with any state, all tables, entries, sizes and offsets; for lookups all packed images and paths",
  "Tests look at results, not at the requests behind them; bounds need all images.",
  ["xdvdfs-core/src/read.rs: DirentScanIter::next_entry, DirentScanIter::next_sector, scan_dirent_tree, walk_dirent_tree, walk_path", "xdvdfs-core/src/layout.rs: read_data_all, read_data_offset", "xdvdfs-core/src/blockdev.rs: OffsetWrapper::new"])
p("Unpacking onto hosts that ignore case",
  "Unpacking onto a host that does not distinguish some names, such as names that differ in case, restores every file and directory of the image, under its folded name.",
  "all foldings of characters that leave slash, dot and NUL alone; all images with Unix names and all free destinations",
  "Tests run on one file system, with a few names; the collision needs names outside ASCII.",
  ["xdvdfs-cli/src/cmd_unpack.rs: cmd_unpack, copyout_directory", "xdvdfs-core/src/util.rs: cmp_ignore_case_utf8"])
p("Compressing reports success only if the files are complete",
  "If compressing succeeds, every file of the compressed image has the contents that were written to it; on a disk that does not fail, all writes succeed and the files are complete.",
  "all sequences of creating, writing and closing files that the compressor may make; all disks whose successful writes are carried out",
  "Tests do not fill up disks; the failure is at the very end, where no result is looked at.",
  ["xdvdfs-cli/src/cmd_compress.rs: SplitStdFs, cmd_compress", "xdvdfs-desktop/src/compress.rs: SplitStdFs"])
p("A mounted image whose file changes",
  "When the file of a mounted image changes between requests, attributes that were given for an inode number stay the same, a number is given to the same entry again and to no other, reads look at the place that was looked up in the present contents, and lookups and reads do not panic. What is read of a file is its earlier or its present contents.",
  "all image files, all sequences of lookups and listings with any arguments and outcome, all changes of the file in between, all offsets and sizes",
  "Tests mount images that stay as they are; histories of requests and changes cannot be enumerated.",
  ["xdvdfs-fsd/src/img_fs.rs: lookup", "xdvdfs-fsd/src/img_fs.rs: getattr", "xdvdfs-fsd/src/img_fs.rs: read", "xdvdfs-fsd/src/img_fs.rs: readdir", "xdvdfs-fsd/src/img_fs.rs: get_or_assign_inode"])
p("A compressed image reads like the image",
  "The commands that accept compressed images (ls, tree, info, md5, checksum) print for a compressed image what they print for the image that was compressed. In particular, tree prints the tree of a packed image.",
  "all images, all commands with all arguments, all readers that give the bytes of the image and fail behind its end; both build modes and all hash functions",
  "Tests have no compressed images, and none whose partition is not at the beginning.",
  ["xdvdfs-cli/src/img.rs: open_image", "xdvdfs-cli/src/img.rs: CSOBlockDevice::read", "xdvdfs-cli/src/cmd_read.rs: cmd_ls, cmd_tree, checksum_single", "xdvdfs-cli/src/cmd_md5.rs: cmd_md5", "xdvdfs-cli/src/cmd_info.rs: cmd_info"])
p("Compressing in the browser writes complete files or none",
  "When compressing in the browser succeeds, the files have the contents that were written to them, whatever they contained before. If it fails, every file is either complete as far as it was asked for and closed, or as it was before. Unless the browser fails, compressing does not fail.",
  "all sequences of calls by the compressor, all failures of the browser (creating, opening, writing and closing files), all contents of existing files",
  "The page cannot be tested outside of a browser, and browsers do not fail on demand.",
  ["xdvdfs-web/src/fs/ciso.rs: CisoOutputDirectory", "xdvdfs-web/src/fs/mod.rs: FSWriteWrapper", "xdvdfs-web/src/ops/browser.rs: compress_image_impl"])
p("Failures while unpacking in the browser are reported, and leave whole files",
  "Whatever calls of the browser fail while an image is unpacked, the result is the same as without failures or an error is reported after some of the progress messages; success means that everything was unpacked. Afterwards every path is as it was before, or has the entry of the image there, complete, or a new empty file.",
  "all files with one volume, all destinations and their contents, all failures of calls for entries, streams and reads of the image, at all times",
  "The page cannot be tested outside of a browser, and browsers do not fail on demand.",
  ["xdvdfs-web/src/ops/browser.rs: unpack_image", "xdvdfs-web/src/fs/mod.rs: BlockDeviceRead for FileSystemFileHandle", "xdvdfs-web/src/fs/util.rs: create_file, create_directory"])
p("Packing depends on destination and source only through what they do",
  "Packing to two destinations that behave alike, from sources that behave alike, gives the same progress messages and the same result, and leaves destinations that behave alike. On every destination that keeps bytes as a file does, the image is that of a file. In a browser whose calls do not fail, packing with failure handling is packing without.",
  "all types of destinations and sources, all relations between their states, all trees; both build modes",
  "The function is generic; tests run it with a few types only.",
  ["xdvdfs-core/src/write/img.rs: create_xdvdfs_image", "xdvdfs-core/src/blockdev.rs: BlockDeviceWrite", "xdvdfs-core/src/write/fs/mod.rs: FilesystemHierarchy, FilesystemCopier", "xdvdfs-web/src/ops/browser.rs: pack_image_impl"])
p("build-image only needs the files that its rules select",
  "An overlay of a host directory is made exactly as for the tree of its files and directories, and the image of it too, as long as the selected files can be opened; files that are not selected may be unreadable. If the directory contains anything else somewhere (links, devices, unreadable directories, names that are not UTF-8), an error is reported and nothing is left out silently.",
  "all host directories, rules, glob languages and build modes",
  "Host directories in tests contain plain files only.",
  ["xdvdfs-core/src/write/fs/remap.rs: RemapOverlayFilesystem::new", "xdvdfs-core/src/write/fs/stdfs.rs: read_dir, copy_file_in"])
p("Reads that give fewer bytes than were asked for do no harm",
  "If the host answers calls to read with fewer bytes than were asked for, images are read, directories are packed and compressed with the same result; failures of calls are reported.",
  "all files and directory trees, all answers of the host to each call, also failures; both build modes",
  "Local file systems give all bytes in tests; network and FUSE file systems need not.",
  ["xdvdfs-core/src/blockdev.rs: BlockDeviceRead for R", "xdvdfs-core/src/write/fs/stdfs.rs: copy_file_in"])
p("The dry run of build-image tells the files of the image",
  "If build-image ends with success, a dry run with the same rules exits with 0, changes nothing, and prints lines 'host -> image' that tell of each file of the image which host file it is, and of no other files.",
  "all host directories, map rules, file names and image paths outside of the directory; both build modes",
  "Tests compare the output of some dry runs; none builds the image as well and compares.",
  ["xdvdfs-cli/src/cmd_build_image.rs: cmd_build_image", "xdvdfs-core/src/write/fs/remap.rs: dump"])
p("The lines printed while packing tell each file and directory once",
  "While pack and build-image pack, they print lines '[i/n] Added file: path at sector s' or '[i/n] Added dir: ...': i counts from 1 to n, and each file and directory is told by exactly one line, with its sector in the image.",
  "all source trees; both commands; both build modes; the numbers also for runs that fail",
  "No test looks at the output of the commands while they pack.",
  ["xdvdfs-cli/src/cmd_pack.rs: cmd_pack_path", "xdvdfs-cli/src/cmd_build_image.rs: cmd_build_image", "xdvdfs-core/src/write/img.rs: create_xdvdfs_image"])
p("Unpack tells what it extracts",
  "When an image is unpacked to a free place, one line 'Extracting file path' or 'Extracting directory path' is printed for each entry of the image; if the host refuses something, the last line tells the entry that could not be extracted, and those told before have been.",
  "all images, directory trees and destinations without a slash at the end; failures for any image and any host",
  "No test looks at the output of unpack, nor makes the host fail half way.",
  ["xdvdfs-cli/src/cmd_unpack.rs: copyout_directory", "xdvdfs-cli/src/cmd_unpack.rs: cmd_unpack"])
p("Compressing a directory of the host leaves nothing out",
  "When a directory of the host is compressed, special files, names that are not UTF-8 and directories that cannot be listed are reported as errors before anything is read; a file that cannot be opened is reported by the read of one of the sectors of the image; all other sectors are those of the image that packing would make. If every sector can be read, every file that is not empty was read.",
  "all directories of the host with any mixture of files, directories, unreadable files and directories, and special files",
  "Tests compress directories whose files can all be read.",
  ["xdvdfs-core/src/write/fs/stdfs.rs: copy_file_in", "xdvdfs-core/src/write/fs/stdfs.rs: read_dir", "xdvdfs-core/src/write/fs/sector_linear.rs: read_sector", "xdvdfs-cli/src/cmd_compress.rs: cmd_compress"])
p("Compress tells where it puts files",
  "If a directory tree can be packed, compress lays it out with the same messages as pack; each directory is told once by a line 'Added dir: path at sector n' and each entry other than the root once by a line 'Added file: path at sector n', where n is the first sector of the entry in the image.",
  "all directory trees that can be packed, all ways to write paths",
  "No test looks at the output of compress.",
  ["xdvdfs-cli/src/cmd_compress.rs: cmd_compress", "xdvdfs-core/src/write/img.rs: create_xdvdfs_image"])
