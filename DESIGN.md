# Formal model of xdvdfs in Rocq/Coq 8.16.1

The model covers the library (`xdvdfs-core`), the commands of `xdvdfs-cli` and the
FUSE file system of `xdvdfs-fsd`, at the commit in `/repo`. `properties.jsonl`
states the properties in terms of the program, `MANIFEST.json` gives the theorems
for each of them, with notes on what is missing.

## Layout

Everything is in `rocq/theories`. The prefix of a file says what it is for.

* `M_*.v` — the model: total Gallina functions, one per Rust function, each with a
  comment citing file and lines. No proofs.
* `S_*.v` — the vocabulary of the properties: source trees, "this device contains
  that tree", "this path leads to that entry", "this host directory holds that
  tree". It uses no helper functions of the model beyond its types and the plain
  list functions, and nothing about the algorithms.
* `P_*.v` — lemmas.
* `Prop_*.v` — the theorems `cNN_...`, each proved by `exact` from a lemma (or, for
  a counterexample, by computation), followed by `Print Assumptions` and a concrete
  case showing that the hypotheses can be met and the conclusion says something.

Names: `_partial` is a weaker or conditional form of the property, and the comment
above it says what is missing; `_refuted` is a counterexample to the property, that
is, a finding about the program. All other theorems are full parts of the property.

`tools/props.py` writes `properties.jsonl`; `tools/manifest.py` writes
`rocq/_CoqProject` and `MANIFEST.json` from the sources and `tools/notes.json`;
`tools/mutate.py` builds a wrong variant of the model in a scratch directory and
reports which theorems fail; `seeded/LOG.jsonl` has the results.

## Modelling decisions

* Results are `res E A := Ok a | Err e | Panic p | OutOfFuel`. Every `unwrap`,
  `expect`, `assert`, `unreachable`, `unimplemented`, slice index and checked
  arithmetic that can fail is a `Panic` value with its kind. Loops that Rust does
  not bound take `nat` fuel; running out is the separate value `OutOfFuel`.
  `returns f x` says that `f fuel = x` for all sufficiently large fuels, so
  termination is part of it; `diverges f` says that every fuel runs out.
* Machine integers are `N` or `Z`. Additions that can overflow carry the build
  mode: `Debug` panics, `Release` wraps. Conditions such as `small` exclude
  overflow where a property assumes so; C13 and C58 are about the overflow itself.
* Bytes are `Init.Byte.byte`, strings are lists of Unicode scalar values, paths are
  lists of strings (library) or strings split as `std::path` does (tools).
* A read device is a function from offset and length to bytes or an error. A write
  device (`wdev`) and a file system (`fsys`) are records of functions on a state.
  `prog` is a state monad with a log of progress events.
* `async` code is sequential. `BTreeMap` and `BTreeSet` are sorted lists.
* The hash functions are an arbitrary function `H` on byte strings.
* Theorems about packing quantify over every host file system that presents the
  source tree (`presents`, `copies`), and separate theorems show that the host
  directory, the in-memory host, the image file system and the overlay do.

## What is modelled

| model | source | remarks |
|---|---|---|
| `M_Avl` | core `write/avl.rs` | arena, links, rotations, preorder reordering, iterators |
| `M_Util`, `M_Layout` | core `util.rs`, `layout.rs` | name comparison, windows-1252 by the WHATWG table, bincode fixed-width codecs |
| `M_Dirtab`, `M_Sector` | core `write/dirtab.rs`, `write/sector.rs` | |
| `M_Img` | core `write/img.rs`, traits of `write/fs/mod.rs` | events included |
| `M_Read` | core `read.rs`, read side of `blockdev.rs` | all functions |
| `M_Trace` | core `read.rs:170-246` | lookups again, with a record of the entries read |
| `M_Dev` | core write side of `blockdev.rs`, copiers of `write/fs/xdvdfs.rs` and `write/fs/stdfs.rs`, `std::io::BufWriter` | chunked copies; short reads of a file only at its end (otherwise: `M_Short`) |
| `M_Offset` | core `blockdev.rs:196-225` | write side and `Seek` of `OffsetWrapper` |
| `M_Special` | `write/fs/stdfs.rs` | on directories with special files, unreadable files and names that are not UTF-8; no `M_Host` |
| `M_Trie`, `M_Pathvec` | core `PathPrefixTree`, `PathVec` in `write/fs/mod.rs` | |
| `M_Xfs` | core `XDVDFSFilesystem` in `write/fs/xdvdfs.rs` | |
| `M_Lin` | core `write/fs/sector_linear.rs` | up to the reader handed to the compressor |
| `M_Remap` | core `write/fs/remap.rs` | the matcher (crate wax) is an arbitrary function |
| `M_Check` | core `checksum.rs` | |
| `M_Cli` | cli `cmd_read.rs`, `cmd_md5.rs`, `cmd_info.rs`, `img.rs` `open_image_raw` | the output is a list of lines; images that are not compressed |
| `M_Host` | the host: `std::fs`, `std::path` on Unix | directories and files, no links, permissions or limits; any call may fail spontaneously |
| `M_Unpack` | cli `cmd_unpack.rs` (unpack, copy-out) | without the fallback for handles that cannot be duplicated, see `M_Copyout` |
| `M_Exiso` | cli `cmd_pack.rs`, `img.rs:79-107`, `exiso_compat.rs` | the packer is a parameter, so it may fail half-way; C73 instantiates it |
| `M_Stdfs` | core `write/fs/stdfs.rs` | on `M_Host`; the order of a listing is arbitrary; instantiates the packer of `M_Exiso` |
| `M_Moving` | core `write/fs/stdfs.rs` as `M_Stdfs` | the host changes between the calls: one state of it for every directory that is read and for every file that is opened |
| `M_Build` | cli `cmd_build_image.rs` | the TOML parser is an arbitrary function; printing of the spec is not modelled, its table is |
| `M_Extract` | cli `cmd_unpack.rs`, `exiso_compat.rs:134-159` | as `M_Unpack`, with the image as a file of the host that is read again for every file |
| `M_Copyout` | cli `cmd_unpack.rs` | as `M_Extract`, with copy-out, and with files copied the slow way |
| `M_Message` | `Display`, `to_str` and `as_string` of the errors of core | messages of bincode, wax and devices are parameters |
| `M_Main` | cli `main.rs`, `exiso_compat.rs:199-218` | from parsed arguments to exit status; clap and the logger are not modelled; build-image, image-spec and compress enter as parameters |
| `M_Mount` | fsd `main.rs`, `daemonize.rs` (Linux), constants of `img_fs.rs:166-183` | options and exit status; forking and the mount itself are parameters; clap is not modelled |
| `M_Cso` | cli `cmd_compress.rs`, `img.rs:40-63` | path checks and which files are opened; the compressor and the crate ciso are parameters |
| `M_Fuse` | fsd `img_fs.rs` | lookup, getattr, open, read, readdir; page capacity is arbitrary; no times, permissions, log; unbounded inode numbers; non-negative offsets; UTF-8 names |
| `M_Desk` | desktop `pack.rs`, `unpack.rs`, `compress.rs` | on `M_Host`; the compressor is a parameter |
| `M_Gui` | web `packing.rs`, `compress.rs`, `unpacking.rs`, and the progress callbacks of `compress_image` (desktop, browser) | states, messages and which buttons a page offers; no texts, no layout; unbounded counters |
| `M_Picker` | web `picker/mod.rs`, `picker/browser.rs`, `picker/tauri.rs` and their `.js` | dialogs that are open while the page goes on; callbacks of a button that has vanished are dropped (yew) |
| `M_Jobs` | web `ops/browser.rs`, `ops/tauri.rs`, `ops/tauri.js` | the messages that a job sends, given the events and the result of the operation |
| `M_Web` | web `fs/mod.rs`, `fs/util.rs:110-125`, `ops/browser.rs` | the browser as in the WHATWG File System standard: streams take effect when closed; quota and rules for names are arbitrary; failures of reading the source, of opening and of closing a stream: `M_Browser`; offsets exact (justified by `M_Float` and C161) |
| `M_Narrow` | core `blockdev.rs:54-69`, `layout.rs:249-268`, `read.rs:248-281`, `checksum.rs`, cli `cmd_read.rs:76-92` | the same again where 32-bit `usize` makes a difference |
| `M_Win` | cli `cmd_unpack.rs:20-25`, `std::path` on Windows | paths only; UNC and verbatim paths are not taken apart |
| `M_Browser` | web `fs/mod.rs:24-207`, `ops/browser.rs:22-41, 97-107` | `M_Web` again with calls that fail and files that change; packing a directory only |
| `M_Float` | web `fs/mod.rs:35-88, 165-259`, `ops/browser.rs:95-187` | `M_Web` again with `as f64` where the code has it: rounding to 53 bits, ties to even (`c161_rounding` proves that it is this rounding). C161 proves both models equal |
| `M_Live` | core `read.rs`, `layout.rs:249-292`, `blockdev.rs:146-199`, `checksum.rs` | `M_Read` and `M_Check` again, as computations that make one request after the other; a device has a state |
| `M_Fold` | cli `cmd_unpack.rs` | `M_Unpack` on a host that looks every name up by its folded form, one character at a time; normalisation and the spelling that is kept are not modelled |
| `M_Parts` | cli `cmd_compress.rs:23-44, 77, 133`, desktop `compress.rs:19-51`, `std::io::BufWriter` | the crate ciso makes any calls; each file has its own failures |
| `M_Zip` | cli `img.rs:10-31, 43-76`, the commands of M_Cli on an opened device | the reader of the crate ciso is an arbitrary device |
| `M_Streams` | xdvdfs-web `fs/ciso.rs`, `fs/mod.rs:14-57`, `ops/browser.rs:67-90` | the calls of the crate ciso are arbitrary; a file whose stream could not be opened is left out; the browser applies a stream when it is closed |
| `M_Trouble` | web `ops/browser.rs:116-187` | `M_Web` again with calls and reads that fail; the image file is not changed meanwhile |
| `M_Short` | core `write/fs/stdfs.rs:76-160`, `blockdev.rs:226-240`, `std::io::copy`, `read_exact` | each call of the host gives any number of bytes, at least one before the end of the file, or fails; interrupted calls are repeated and not counted |
| `M_Dry` | cli `cmd_build_image.rs:138-248` | build-image as a process, with what a dry run prints; lines about progress left out (`M_Lines`) |
| `M_Lines` | cli `cmd_pack.rs:75-90`, `cmd_build_image.rs:230-243` | the lines for given events; how the source writes a path is any function; unbounded counters |
| `M_Loud` | cli `cmd_unpack.rs:13-100` | unpack with its lines on standard output; warnings left out |
| `M_Rawmem` | core `write/fs/stdfs.rs:104-160` | copying into memory from directories with unreadable and special files |
| `M_Complines` | cli `cmd_compress.rs:79-87` | the lines for given events; how the source writes a path, with quotes, is any function; the line about compressed sectors is left out |

## What is not modelled

* The rendering of `xdvdfs-web`; window events of
  `xdvdfs-desktop`; argument parsing by clap; what fuser and the kernel do for a mount.
* The crate ciso, that is the compressed format (reading compressed images: C167). What the
  compressor reads is modelled (C37, C38).
* SHA-3 and MD5, logging, progress bars, messages of the tools other than those of core.
* Concurrency and cancellation of `async` code; changes of a file while it is being
  copied (changes between listing and copying: C151); symbolic links of the host (but see C140).
* The origin of an I/O error (errors carry a kind or a code only).

## Properties and approach

| ids | approach |
|---|---|
| C01–C04 | an inductive relation between the arena and a tree shape; rebalancing with the context of the path back to the root; Fibonacci bound |
| C05–C08, C56 | induction over strings; all 256 code page entries by computation (complete, the domain is finite) |
| C09–C13 | invariant of the layout loop; a list of placements as specification |
| C14–C24 | packing yields a device that `holds` the tree, with all regions disjoint; the reader is then verified against `holds`; C22 on a device that stops after any prefix of the writes, with a torn last write |
| C25–C33 | direct proofs for arbitrary devices, that is, untrusted images; soundness by induction on fuel, completeness by induction over search trees |
| C34–C36, C55, C57, C59 | chunk loops; simulation between the buffered and the plain file, and between memory and file |
| C37–C41 | simulation between the sector-linear device and the file; the image file system presents the scanned tree; trie as a map |
| C42–C44, C60–C65, C135–C137 | overlay: rules as specification, claims of host paths, induction over the walk |
| C45, C46 | the hashed bytes are the concatenation given by a sorted fingerprint of the tree |
| C47–C51, C70–C73 | a host tree before and after; `stays_below`, `restored`, `moved_to` |
| C52–C54, C74–C76, C101 | invariant of the inode tables over arbitrary sequences of requests |
| C77–C84, C100, C109, C110 | the host directory presents its tree; composition of packing, overlay, unpacking and the host |
| C85–C88 | the desktop commands against the commands of the tool |
| C89–C92, C111 | pages as transition systems driven by the user and by jobs; invariants over all histories |
| C93–C98 | simulation between the stream and a file; the loop of unpacking against the merged tree, and an invariant of its stack for untrusted images |
| C103–C105 | simulation between unpacking with the image on the host and apart from it; induction over the list of images |
| C119–C121 | induction over the records of a sector and over the sectors; uniqueness of the tree of a table |
| C122–C126 | a relation between the results on a failing and on a sound device, closed under sequencing; slices of concatenated files |
| C140 | the run as a list of steps (`pack_run`), one of which fails; induction over the directory |
| C141 | the fingerprint of C45 does not depend on the order (`fingerprint_same`); a tree that was restored is hosted in every order (`ordered_tree`) |
| C144 | the table on disc has the shape of the balanced tree; at most 16384 records fit into a table |
| C145, C146 | a relation between the results of the two builds, closed under sequencing; the run of `pack_file` does not depend on the file system |
| C147 | the regions of a packed tree are disjoint intervals; a family of images whose directories share their tables, by induction |
| C148 | as C53, for pages of any size; a case analysis of the two dot entries |
| C150 | a simulation in both directions between pages with dialogs and the histories of C89–C91 |
| C151 | the writes of the run against those for the listed sizes, one shorter than the other; disjointness as in C21 |
| C152 | file systems that answer alike give equal runs, by induction over the programs; the first run changes nothing below the source |
| C153, C154 | unfolding; the entry at the start of a table is its root node, from the inversion of `contains` |
| C155 | inversion of successful host calls, entry by entry; parents come first |
| C142, C143 | the messages of a job as a list, against the transition system of the page |
| C138, C139 | induction over paths; case analysis on the opening of the image |
| C134 | comparison of texts from the front, and from the end for rewrite rules |
| C132, C133, C149 | the theorems on the commands carried over to the processes; C149 by induction over the arguments |
| C129–C131 | the writes of a run applied to any old contents; shifting a list of writes |
| C127–C128 | panic-freedom of every reading operation on a device that does not panic itself; termination lifted from C32 to the commands |
| C118 | well-founded induction over the graph of pointers, which is finite |
| C116, C117 | the same with an arbitrary choice of files that are copied the slow way |
| C106–C108 | components of paths; exact case distinctions |
| C112–C115 | induction over the options; case distinctions |
| C99 | success is invariant under removing the failures, by composition over the host calls |
| C58, C66–C69, C102 | the printed lines against the tree in the image |
| C156 | the device in memory on 64 bits answers no more than that on 32 bits; monotonicity of all readers in the device |
| C157 | a model of `Path::join` for Windows; joining a relative path appends its names to a place |
| C158 | induction over the steps of packing with three outcomes; a listing that fails is the only difference to one that does not |
| C159 | P_Reply: the calls of `next_entry` from the state of a listing follow a finite course (the measure of C33); skipping and filling are inductions over it. Lookups by the circles of C118. |
| C160 | P_Buffer: a computation whose result is the same on all devices that agree on small requests makes no large one; induction over the loops as for extensionality. |
| C161 | P_Float: two devices (or file systems) that agree below 2^44 give equal results; a relational induction over `create_xdvdfs_image` with the bounds on its allocator as invariant. |
| C162 | P_Live: reading as computations over requests; equal to `M_Read` on a device that does not change; predicates on computations (errors are passed on, no panic, an end) by induction over the code, then over the requests. |
| C163 | P_Asks: the list of requests of a sequence; an invariant of the scan that relates its sector to the requests; lookups against `M_Trace`. |
| C164 | P_Fold: folding commutes with joining paths; the loop makes the entries of the folded tree (`making` in P_Unpack, shared with C48); sorted tables have no two names that are equal up to ASCII case. |
| C165 | P_Parts: an invariant over the calls that relates buffered writers to the contents asked for; writers on files that may fail follow those on files that do not (P_Flush). |
| C166 | P_Swap: the invariant of P_Fuse about the cache of inode numbers does not mention the device, so it lasts while the file changes. The `BufReader` keeps nothing, since every read seeks first and that empties it. The file changes between requests, not during one (for that see C162). |
| C167 | P_Zip: a reader that gives the bytes of the image fails more than the file and the other way round (P_Flaky); the reader is used without an offset wrapper. |
| C168 | P_Streams: every stream holds what was asked for, every closed file too, and every open file is as before; induction over the calls. |
| C169 | P_Trouble: step by step the same as `web_unpack`, or an error; an invariant of the stack says which entries of the image are pending. |
| C170 | P_Generic: a relation between the states, kept by every step of `create_xdvdfs_image`. |
| C171 | P_Mixed: a directory is `listable` as a tree or `unlistable`; the walk of the overlay visits all of it, with the number of entries as measure. |
| C172 | P_Short: induction over the calls; each takes off the beginning of what is left; packing by C170. |
| C173 | P_Dry: C65 and C83 for the same claims, which the rules and the directory determine. |
| C174 | P_Lines: the callback folded over the events of C23, whose shape is known from C92. |
| C175 | P_Loud: the loop with lines simulates the one of C48; which entries there are by C48's enumeration. |
| C176 | P_Rawmem: directories by C140; the layout of C37 is made without the contents of files, and each file that is not empty has a sector of its own. |
| C177 | P_Complines: packing to a file and to the linear device run the same steps, so report the same events; then as for C174. |

## Findings

Each is a theorem ending in `_refuted` with a concrete witness that Coq evaluates.

* C13: in a release build the sector counter wraps and hands out overlapping regions.
* C28: `read_data_offset` across the end of a file returns the bytes behind it.
* C29: `walk_path` on `//` panics, on every image.
* C32: a cyclic child pointer makes lookups and listings endless; so does a
  directory that contains itself, for listings.
* C33: the sector scan panics on an entry whose name crosses the end of its sector.
* C35: reading a memory device across its end panics instead of failing.
* C36: copying a host file into memory at a non-zero offset always panics.
* C38: compressing from an image panics on every file of 1 to 2047 bytes.
* C41: repacking panics on names with characters above U+00FF that packing accepts
  (on all of those, and on no other names).
* C44: a file mapped below another mapped file is lost without a message.
* C46: different trees feed the same bytes to the checksum.
* C47: names such as `../x` and `/x` leave the destination when unpacking; an image
  called `...iso` is unpacked into the parent directory.
* C49: data that is missing at the end of an image is not noticed when unpacking.
* C50: `-c DIR -c DIR FILE` is always refused, contrary to the usage; two sources
  may be packed to the same file.
* C51: `-r` on two images whose names differ in the extension loses one original;
  repeating a failed `-r` loses it; `-D` deletes it although the new image was not
  written completely.
* C52, C54: directory listings use other inode numbers than lookups, and two files
  can be listed under one number.
* C57: packing into memory fails for a buffer larger than the image whose length is
  no multiple of 64 KiB, and panics for host files (C36).
* C58: `info` panics or prints 0 for a child at offset 65536 or more.
* C59: `pack` reports success although the last buffered bytes were not written (only
  the implicit flush at the end can be lost this way).
* C60: captures that look like placeholders are replaced again.
* C61: `{0}` drops the leading dot of `.hid`.
* C64: building an overlay panics on names above U+00FF.
* C68: `md5` lists directories as files; given a directory, the printed paths have a
  double slash.
* C71: `-r -d DIR` always writes the image to the directory that contains DIR.
* C72: the output may be created inside the directory that is being packed.
* C75: a missing name is answered by EIO.
* C76: FUSE reads across the end of a file return foreign bytes; at the end they fail.
* C79: a map rule whose pattern has a colon cannot be given with `-m`; the rest of
  the argument is dropped silently.
* C80: `build-image` ignores `-O`; of several rules with the same pattern
  `image-spec from` keeps the last, the command line uses the first.
* C81: `build-image .` and `build-image xdvdfs.toml` fail.
* C84: `build-image` may overwrite the file that is being packed, or the spec.
* C85: the desktop application reports failed commands as success, because `.ok()?`
  turns an error into the answer for success.
* C87: packing an image onto itself in the desktop application destroys it.
* C89: choosing the root directory as the source makes the packing page panic.
* C90: choosing a second output folder after unpacking panics.
* C91: a second compression can be started while one is running; changing the kind of
  the input meanwhile leads to a panic.
* C96: unpacking in the browser keeps the bytes of an existing file where the image
  has an empty one, and does not notice missing data (as C49).
* C98: empty files are counted but never reported as done, so the progress of
  unpacking in the browser stops short of its end.
* C103: an image with a file of its own name destroys itself when it is unpacked into
  its own directory; all files come out empty, and success is reported.
* C104: `-x` merges images of the same name into one directory, and `-d` does so with
  all images; files are replaced silently.
* C106: `compress ./d d/out.cso` writes into the source; the checks compare the paths
  as they are spelled.
  The same happens with an absolute source and a relative output that exists.
* C107: `compress .` panics (no file name to derive the output from).
* C113: the mount program exits with status 0 even if the file is no image or the mount
  fails, unless `-o nofork` is given: the parent only waits for the child to write or
  close the pipe, and the child reports before it mounts.
* C114: mounting a directory panics (`unimplemented!`).
* C115: `st_blocks` counts blocks of 2048 bytes instead of 512; under
  `-o default_permissions` no directory can be searched (mode 0444); `st_nlink` is 0.
* C117: a file copied out over its own image leaves an empty file; success is reported.
* C120, C121: repacking and directory listings of a mounted image scan the sectors
  instead of following the tree: with a gap between two records files are lost or not
  listed; old records that are not part of the tree come back.
* C123: the search for the partition goes on at the next place after a read error, so a
  truncated file with two partitions shows the other one, without an error.
* C125: `pack` from a truncated image succeeds; `std::io::copy` stops at the end of the
  file, its count is ignored, and the missing data becomes zeros.
* C127: a path of two slashes or more makes ls, info, md5 and copy-out panic; `unpack ..`
  panics before it opens the image (`file_name().unwrap()`).
* C130: `OffsetWrapper::len` is the length of the whole file, so packing into a partition
  writes the padding behind the end by the offset of the partition.
* C137: a rule target such as `a/../y` is taken literally: the image gets a directory
  called `..` and cannot be unpacked (nothing is written outside, though: C136).
* C139: `pack` empties an output that exists before it looks whether the source is an
  image; `extract-xiso -r` moves a file that is no image to `.old` and leaves an empty one.
* C142: a command of the desktop application that panics (packing from an image with a
  name above U+00FF) never answers, so the page stays locked in "packing".
* C143: the percentage multiplies by 100 in u32; beyond 42949672 sectors (88 GB) the page
  panics or shows 0.
* C146: the bytes of an image depend on the order in which the host lists a directory
  (names are inserted into the balanced tree in that order, and nothing sorts them): `a b c d`
  and `c b d a` give different tables. For the same reason, packing an image made by this
  library again changes its bytes.
* C147: nothing limits how much an image unpacks to. Two directories may share one
  table, so an image of 68 + 2n KiB unpacks to 2^n files of 2 KiB, without an error
  (148 KiB become 2 TiB). Images made by this library are longer than what they
  contain.
* C148: a `readdir` request whose reply has room for a single record fails with EIO when
  the listing starts: when ".." does not fit, the reply with "." is dropped.
* C150: nothing on a page is locked while a dialog is open. Where dialogs are not modal,
  clicking twice on "Save image" packs two images at once, changing the kind of the input
  while its dialog is open leaves a folder selected as image file (with a wrong suggested
  name), and a second dialog for the folder to unpack to panics.
* C151: a file that becomes shorter between listing and copying leaves the size that was
  listed in the image and no bytes behind what was written. If it is the last one, the
  image ends before it: packing succeeds and the file cannot be read.
* C152: `build-image` accepts an image inside of the source directory (`pack` refuses it).
  If a rule matches everything, each further run packs the image of the run before.
* C153: `read_data` (layout.rs:233-245) reads as many bytes as the buffer has, not as the file has.
  A larger buffer gets what lies behind the file; if the image ends there, the read fails with
  `UnexpectedEof` although the file is complete.
* C155: unpacking a second time to the same place fails with "already exists" at the first
  directory (`create_dir` in cmd_unpack.rs:36), while files are replaced silently. The same
  holds for `copy-out` and `extract-xiso -x`. The files listed before it have been replaced by then.
* C156: on 32-bit platforms, `xdvdfs tree` prints the total size modulo 4 GiB (cmd_read.rs:85; a
  debug build panics), although images on DVDs are larger; `read_data_all` panics for files of 2 GiB
  or more instead of failing (layout.rs:253); reading from memory cuts offsets to 32 bits
  (blockdev.rs:60, the writers use `try_into`), so a file behind the end has other contents; and
  `sector + sectors` overflows for tables near the last sector (read.rs:278).
* C157: on Windows, names with a backslash or a colon (`..\x`, `\x`, `d:x`), which are plain names in
  an image, make unpacking write outside the destination, as slashes do elsewhere (C47).
* C158: in the browser, a source directory that cannot be listed, an output that cannot be opened or
  closed, and a file that becomes shorter while packing make the job panic (`unwrap`, `assert_eq!`
  in `fs/mod.rs`). The page then waits forever.
- C159: mounting an untrusted image is a denial of service: one lookup in a table whose records form a circle never returns, and with it the single-threaded daemon; one listing of a table with a name that crosses the end of its sector panics (`assert!` in `next_entry`).
- C160: `read_data_all` allocates the size that a record claims before it looks whether the image is that long: `checksum` and `md5` of an image of 68 KiB ask for 4 GiB. An abort on platforms with little memory.
* C162: an entry and its name are read by two requests (`read_dirent`), so listing an image that
  changes meanwhile can show an entry with the size of one version and the name of the other.
* C164: the format compares names ignoring the case of ASCII letters only, so an image may have both
  "é" and "É" in a directory. Unpacking onto a host that folds these as well (macOS, for instance)
  reports success, but one of the two files overwrites the other.
* C165: `compress` reports success although the disk is full: `SplitStdFs::close` drops a `BufWriter`,
  and dropping ignores errors. Up to 8191 bytes at the end of every file can be lost.
* C166: after the file of a mounted image was replaced by another image, reading a file gives the contents
  of another file of the new image, and files of the new image are not found: root table and numbers are remembered for ever.
* C167: images whose partition is not at the beginning (such as full disc images) can be read by ls, tree, info, md5 and
  checksum, but not after they were compressed by another tool: `open_image` searches only plain files for the partition.
  unpack, copy-out and pack do not read compressed images at all (`open_image_raw`).
* C168: when a file of a compressed image cannot be opened for writing or closed in the browser (for example because
  the disk is full), `FSWriteWrapper::new` and `close` panic, and the page shows no error.
* C169: when a call fails in the middle of unpacking in the browser, an empty file may be left where the image has
  another one; it is not removed. No other incomplete files are left.
* C171: `build-image` fails if there is a symbolic link, a device or an unreadable directory anywhere in the source directory, even if no rule selects it or a negated rule excludes it: the overlay lists all directories first (`remap.rs:179-204`), and the listing of a directory fails for such an entry (`stdfs.rs:39-60`).
* C172: compressing a directory takes what one call of `read` gives for a sector and fills the rest with zeros (`stdfs.rs:127-129, 156-158`), so that a short read, which the host may give at any time, damages the image without an error. Packing (`io::copy`) and reading images (`read_exact`) are not affected.
* C173: a dry run succeeds for rules whose image cannot be built, such as two names that differ only in case (Example `c173_dry_only`): it shows the rewriting only.
* C174: each directory but the root is printed twice, first as `Added file` and later as `Added dir` (`img.rs:164` reports entries of both kinds as `FileAdded`), and counted twice in the total.
* C176 (`c176_refuses_as_pack_refuted`): an empty file that cannot be opened makes `pack` fail (it opens each file), but `compress` never opens it and succeeds. Nothing is lost, as the file is empty.
* C177: like pack (C174), compress prints each directory but the root twice, first as `Added file` (`c177_told_once_refuted`).
* C131: `seek` of an `OffsetWrapper` takes positions from the start of the partition and
  returns positions from the start of the file.

## Trusted base

* The Coq kernel, 8.16.1.
* Axioms: none. `Print Assumptions` after every theorem of the `Prop_*.v` files
  prints "Closed under the global context". `coqchk -o` lists seven parameters of
  the module type in the standard library's `ssr.ssrunder`, which is loaded with
  `lia`; no theorem depends on them.
* The correspondence between the Rust text and the model, by reading; the cited
  lines are in the comments.
* Library behaviour that is modelled, not verified: encoding_rs windows-1252,
  bincode fixed-width integers, `std` collections, `std::io`, `std::path`,
  `std::fs`.
* The specification vocabulary in `S_*.v` and the statements in `Prop_*.v`.
