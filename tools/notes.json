{
 "C12": {
  "note": "For allocators whose total stays below 2^32 sectors; beyond that see C13."
 },
 "C13": {
  "note": "Proved for debug builds. Refuted for release builds: the u32 addition wraps and regions overlap (witness)."
 },
 "C14": {
  "note": "For every source tree whose sizes fit the 32-bit counters (spec: source, small) and every host file system that presents it."
 },
 "C22": {
  "note": "Ordered-write crash model: a prefix of the write sequence with a torn last write."
 },
 "C24": {
  "note": "For two orders of the same tree that both pack (the 256 KiB limit of a table depends on the order); the images then show the same tree."
 },
 "C28": {
  "note": "Ranges inside the file proved exact. Refuted: a range past the end returns bytes that follow the file."
 },
 "C29": {
  "note": "Proved for every path with a component, the empty path and \"/\". Refuted: \"//\" panics on every image."
 },
 "C32": {
  "note": "Proved for images without cycles (C118 characterises these). Refuted: a pointer cycle makes a lookup and a listing endless; a directory containing itself makes the listing endless."
 },
 "C33": {
  "note": "Termination and the bound on entries proved for every device, and exactly when it panics. Refuted: an entry whose name crosses the end of its sector panics."
 },
 "C35": {
  "note": "Writes proved bounded. Reads classified completely; refuted: a read that starts inside and ends outside the buffer panics."
 },
 "C36": {
  "note": "Proved for output offset 0. Refuted for every other offset inside the buffer: index panic."
 },
 "C38": {
  "note": "Characterised: every image with a file of 1..2047 bytes gives an unreadable sector; without such files all sectors are those of the packed image. Refuted by a file of one byte."
 },
 "C41": {
  "note": "Characterised: for every well-formed image, repacking never panics if all names are in Latin-1 and always panics otherwise. Refuted as stated: the name U+20AC packs, repacking the resulting image panics (index beyond 256 in the path trie)."
 },
 "C44": {
  "note": "Characterised exactly (c44_listed_exactly), and proved for mapped paths that no other claim runs through. Refuted: a file mapped below another mapped file disappears."
 },
 "C45": {
  "note": "For names without slashes."
 },
 "C46": {
  "note": "Proved for trees of the same shape. Refuted: file contents can imitate a path and a further empty file."
 },
 "C47": {
  "note": "Proved for images whose names have no slashes, and for names with slashes that are relative and have no \"..\", with an explicit destination. Refuted three times: \"../x\", \"/x\", and the default destination of an image called \"...iso\"."
 },
 "C48": {
  "note": "For trees of valid Unix names into an empty or absent destination."
 },
 "C49": {
  "note": "Proved: a successful unpack of a truncated image restores the tree except that data may be missing from file ends. Refuted: missing data is not reported."
 },
 "C50": {
  "note": "Proved for repeated -c without FILE. Refuted: a FILE after a repeated -c is always rejected; two sources may get the same output."
 },
 "C51": {
  "note": "Proved: one image, or several with distinct old names, keep a copy. Refuted: a.iso and a.bin share a.old; a repeated failed run destroys the original; -D deletes it after a lost flush error."
 },
 "C52": {
  "note": "Proved for lookup, whatever requests come in between. Refuted for directory listings: two empty files of the same name share a number."
 },
 "C53": {
  "note": "For pages with room for two records; with a smaller page the handler drops the reply (EIO)."
 },
 "C54": {
  "note": "Refuted; stronger, a number given by a listing is never given by a later lookup."
 },
 "C57": {
  "note": "Proved for sources with a memory-capable copier and a buffer of a multiple of 64 KiB. Refuted: a larger buffer that is no such multiple; host files (because of C36)."
 },
 "C58": {
  "note": "Proved for offsets below 65536. Refuted: a child offset of 65536 panics (debug) or prints 0 (release)."
 },
 "C59": {
  "note": "Proved: if pack succeeds and the final flush reports no error, the file holds everything written, on every device that writes or fails. Refuted as stated: errors at the final implicit flush are dropped."
 },
 "C60": {
  "note": "Proved for captures without an opening brace. Refuted: a captured \"{2}\" is substituted again."
 },
 "C61": {
  "note": "Proved for paths that do not start with a dot. Refuted: \".hid\" becomes \"hid\"."
 },
 "C64": {
  "note": "The outcome is characterised completely. Refuted: a host name beyond U+00FF panics."
 },
 "C68": {
  "note": "What is printed is characterised. Refuted: directories are listed with a checksum of their table; with a path argument the printed paths have a double slash."
 },
 "C71": {
  "note": "Proved where the image really goes: into the directory that contains DIR. Refuted as stated: it is not written to DIR unless DIR is the root."
 },
 "C72": {
  "note": "Proved for image sources, and that only the output is written. Refuted: an output inside the source directory is accepted when spelled with \"..\" and not existing yet."
 },
 "C75": {
  "note": "Refuted: EIO instead of ENOENT. Proved: it does fail, and changes nothing."
 },
 "C76": {
  "note": "Refuted twice: a read across the end returns foreign bytes, a read at the end fails. Reads inside the file: C74."
 },
 "C79": {
  "note": "Proved for arguments with at most one colon. Refuted: a pattern with a colon (a wax repetition) cannot be given; what follows a second colon is dropped."
 },
 "C80": {
  "note": "Proved for distinct patterns when -O is absent or an image path is given. Refuted twice: -O is ignored by build-image (proved for all runs); of rules with the same pattern the spec keeps the last."
 },
 "C81": {
  "note": "Proved for directories other than \".\" and spec files that are not a bare name, or when an output or image path is given. Refuted twice: build-image . and build-image xdvdfs.toml fail."
 },
 "C84": {
  "note": "Proved for images outside of the source directory. Refuted: an image path naming a mapped file replaces it."
 },
 "C85": {
  "note": "Refuted three times: missing sources, unrepresentable directories and invalid images are reported as success. Proved: no command ever reports an error."
 },
 "C87": {
  "note": "Proved for outputs outside of the source; only the output changes in any case. Refuted: packing an image onto itself leaves an empty file and reports success."
 },
 "C89": {
  "note": "One job at a time, with disabled buttons: proved. No panic: proved for inputs with a file name. Refuted: choosing / makes the page panic."
 },
 "C90": {
  "note": "One job at a time: proved. No panic: proved if an input is chosen before every output. Refuted: choosing a second output panics."
 },
 "C91": {
  "note": "Proved for users who wait for the end of a job. Refuted twice: buttons stay enabled while sectors are compressed, so a second job can be started, and changing the kind of the input then leads to a panic."
 },
 "C96": {
  "note": "Proved for complete images and destinations without other files where the image has empty ones. Refuted twice: an empty file does not replace an existing file, and missing file data is not noticed."
 },
 "C98": {
  "note": "Proved for images without empty files; in general, empty files are announced but not reported, which refutes the property."
 },
 "C103": {
  "note": "Proved for free destinations, and for all images outside of the destination. Refuted: an image that contains a file of its own name is destroyed when it is unpacked into its own directory, all files come out empty and success is reported."
 },
 "C104": {
  "note": "Proved for images of different names. Refuted: images of the same name, and all images with -d, are merged into one directory; files of the first are replaced silently."
 },
 "C106": {
  "note": "Proved for paths that are spelled alike; all other outputs are accepted. Refuted: a source spelled with \"./\" is not recognised, neither as the output nor as containing it; nor is an absolute source with a relative output."
 },
 "C107": {
  "note": "Characterised: it panics exactly if no output is given and the source has no file name. Refuted: \"compress .\" panics."
 },
 "C113": {
  "note": "Proved with nofork. Refuted: after forking the status is 0 in any case, also for a file that is no image."
 },
 "C114": {
  "note": "Proved for sources that are not directories. Refuted: mounting a directory panics."
 },
 "C115": {
  "note": "Read-only, and enough blocks of 2048 bytes: proved. Refuted: block counts are too small in units of 512 bytes, and directories cannot be searched under default_permissions."
 },
 "C117": {
  "note": "Proved for destinations that are neither the image nor contain it. Refuted: copying a file out over its own image leaves an empty file and reports success."
 },
 "C120": {
  "note": "Proved for images whose records lie one behind the other from the beginning of each sector, without others; all packed images are such. Refuted twice: behind a gap files are lost without a message, and records that are not part of the tree any more come back."
 },
 "C121": {
  "note": "Proved for the same images as C120. Refuted twice: a file behind a gap is found but not listed, an old record is listed but not found."
 },
 "C123": {
  "note": "Proved for files whose partition is at the start or still found at the same place. Refuted: a truncated file with two partitions shows the other one without an error."
 },
 "C125": {
  "note": "Proved for all sources whose failures are errors, and for images with the default copier. Refuted: StdIOCopier, used on the command line, stops at the end of a truncated image without an error, and the missing data becomes zeros."
 },
 "C127": {
  "note": "Proved for tree and checksum without conditions; for ls without the scan, md5, info in release builds and copy-out except for paths of two slashes or more; unpack panics exactly if it is given no destination and the image path has no last component. Refuted for \"//\", for \"unpack ..\", and for ls with the scan (C33); info in debug builds, see C58."
 },
 "C130": {
  "note": "Proved: the data in front is kept, the tree is in the partition, and success is as for an empty file. The length is characterised when the old image is at least as long. Refuted: len is that of the whole file, so padding is written too far behind by the offset of the partition."
 },
 "C131": {
  "note": "Proved for seeking from the start. Refuted: the position returned counts from the start of the file."
 },
 "C135": {
  "note": "For templates whose captures have no opening braces (C60)."
 },
 "C137": {
  "note": "Proved for rules whose targets have no \".\", \"..\" or NUL as names. Refuted: the target a/../y builds an image that cannot be unpacked."
 },
 "C139": {
  "note": "Proved for unpack, copy-out, extract-xiso -x, repacking in the browser, and the library's repacking; for pack up to the output, which can be emptied. Refuted: pack empties an existing output before it looks at the source, and extract-xiso -r moves a file that is no image away and leaves an empty one."
 },
 "C142": {
  "note": "Proved for jobs that do not panic. Refuted: packing from an image with a name above U+00FF panics in the command of the desktop application, which then never answers; the page stays locked."
 },
 "C143": {
  "note": "Proved up to 42949672 files or sectors. Refuted: 100 * done overflows u32 beyond that (88 GB); the page panics or shows 0."
 },
 "C146": {
  "note": "Proved for the same order of listing. Refuted: another order gives another balanced tree and so other bytes (four files suffice); packing an image made by this library again does so, too."
 },
 "C147": {
  "note": "Proved for images made by this library. Refuted for others: directories that share a table make an image of 68 + 2n KiB unpack to 2^n files of 2 KiB."
 },
 "C148": {
  "note": "Proved: a listing that is answered to its end is complete, and exactly when requests are answered. Refuted: with room for one record the first request fails with EIO."
 },
 "C150": {
  "note": "Proved where an open dialog locks the page (it then equals C89-C91). Refuted where it does not: two jobs at once, an input of the wrong kind, a panic."
 },
 "C151": {
  "note": "Proved that what was listed is found, that files that did not become shorter are intact, and that the image is the expected one up to missing zeros at its end. Refuted that everything can be read: a file that became shorter may lie behind the end of the image."
 },
 "C152": {
  "note": "Proved for pack, and for build-image with an image outside of the source directory, whatever the result. Refuted for an image inside of it, which build-image accepts: the second image contains the first one."
 },
 "C153": {
  "note": "Proved for buffers that are not larger than the file. Refuted for larger ones: they get the bytes behind the file, and at the end of the image reading fails although the file is complete."
 },
 "C155": {
  "note": "Proved that success means that everything is there and nothing else changed, and that unpacking succeeds if directories have free places and files do not fall on directories. Refuted for directories that are there already: unpacking an image with a directory twice to the same place fails."
 },
 "C156": {
  "note": "Proved that everything that is read successfully from an image in memory on a 64-bit platform is read with the same result on a 32-bit one, and what the total of tree is. Refuted in four places: the total wraps or panics from 4 GiB on, files of 2 GiB panic, offsets are cut to 32 bits, and the end of a directory table can overflow."
 },
 "C157": {
  "note": "Proved for names without separators and colons, on the level of paths, for destinations that do not begin with two separators. Refuted for names such as ..\\\\x, \\\\x and d:x, which are plain names in an image."
 },
 "C158": {
  "note": "The output is proved right for all failures (c158_output). That the page learns of failures is proved for calls on the stream and for files, and refuted for listing the source, opening and closing the output, and files that become shorter: these panic."
 },
 "C159": {
  "note": "Proved without conditions for mounting, getattr, open, read, and for the end of every listing. Partial for the answers of listings (a name crossing the end of a sector makes the daemon panic, c159_listing_refuted) and of lookups (a circle in a table makes the daemon hang, c159_lookup_refuted); for lookups the condition is exact."
 },
 "C160": {
  "note": "Proved for everything but whole files, which need the size that the record claims (c160_whole_files_partial). Refuted for these: an image of less than 70000 bytes makes checksum fill a buffer of 4294967295 bytes."
 },
 "C161": {
  "note": "The floating point model of the browser back end equals the exact one without conditions. Sizes of buffers of the browser itself are as in M_Web."
 },
 "C162": {
  "note": "c162_atomic_refuted: entries are not read atomically; the rest is proved."
 },
 "C163": {
  "note": "The requests are those of BlockDeviceRead; buffering below (BufReader) is not modelled."
 },
 "C164": {
  "note": "c164_all_files_refuted: files whose names differ in the case of letters outside ASCII overwrite each other. Proved if folded names stay apart, in particular for ASCII folding."
 },
 "C165": {
  "note": "c165_success_means_complete_files_refuted: the flush when a writer is dropped may fail unseen. Proved if it succeeds."
 },
 "C166": {
  "note": "c166_present_contents_refuted: what is read can be the contents of another file. The rest is proved."
 },
 "C167": {
  "note": "c167_same_refuted: compressed images are not searched for the partition. Proved for partitions at the beginning; for others every command fails (c167_elsewhere)."
 },
 "C168": {
  "note": "c168_failures_are_reported_refuted: failures to open or to close a file panic. Everything else is proved for all calls and failures."
 },
 "C169": {
  "note": "c169_only_whole_files_refuted: an empty file may be left. Missing in the partial theorems: files with several volumes, where a failing read may lead to another volume."
 },
 "C170": {
  "note": "Proved for all destinations, sources and relations between them; relates the models of C158 and C93."
 },
 "C171": {
  "note": "c171_listable_partial: for directories with plain files and directories only (files that are not selected may be sealed). Missing: links and the like that no rule selects make it fail (c171_only_selected_files_matter_refuted); c171_special proves that this is always reported."
 },
 "C172": {
  "note": "c172_compress_partial: calls that give at least a sector, or fail. Missing: compressing a directory with shorter answers loses data silently (c172_compress_refuted)."
 },
 "C173": {
  "note": "The converse does not hold: a dry run may succeed where the image cannot be built (Example c173_dry_only)."
 },
 "C174": {
  "note": "c174_lines_partial: numbers, sectors, and one line that says dir per directory. Missing: a directory other than the root is also told by a line that says file (c174_told_once_refuted)."
 },
 "C175": {
  "note": "A destination that ends in a slash is written with it; lines then begin otherwise (not covered by c175_lines; c175_failure and c175_same cover it)."
 },
 "C176": {
  "note": "Missing for c176_files_partial: empty files, which compress never opens (c176_refuses_as_pack_refuted)."
 },
 "C177": {
  "note": "Missing: a directory other than the root is also told by a line that says file (c177_told_once_refuted)."
 }
}
