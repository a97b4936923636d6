(** Model of the messages of the errors of xdvdfs-core: util.rs:5-64,
    write/mod.rs:13-95, write/fs/xdvdfs.rs:22-54, write/fs/remap.rs:28-93 and
    blockdev.rs:44-51. The types have all variants of the code; how an error of a
    device, of bincode or of wax is shown is a parameter. *)
From Verif Require Import M_Base M_Remap M_Cli.
From Coq Require Import Strings.String.
From Coq Require Import List.
Local Close Scope string_scope.
Local Open Scope N_scope.

(** util.rs:5-19 [Error]; [B] is bincode's error. *)
Inductive read_error (E B : Type) :=
| RIOError (e : E)
| RSizeOutOfBounds (offset size : N)
| RSerializationFailed (b : B)
| RInvalidVolume
| RDirectoryEmpty
| RDoesNotExist
| RStringEncodingError
| RNoDirent
| RIsNotDirectory
| RNameTooLong
| RInvalidFileName
| RTooManyDirectoryEntries
| RFileTooLarge.
Arguments RIOError {E B}. Arguments RSizeOutOfBounds {E B}. Arguments RSerializationFailed {E B}.
Arguments RInvalidVolume {E B}. Arguments RDirectoryEmpty {E B}. Arguments RDoesNotExist {E B}. Arguments RStringEncodingError {E B}. Arguments RNoDirent {E B}.
Arguments RIsNotDirectory {E B}. Arguments RNameTooLong {E B}. Arguments RInvalidFileName {E B}. Arguments RTooManyDirectoryEntries {E B}. Arguments RFileTooLarge {E B}.

(** util.rs:21-39 [to_str]. *)
Definition read_to_str {E B} (x : read_error E B) : str :=
  match x with
  | RIOError _ => text "IOError"
  | RSizeOutOfBounds _ _ => text "File size out of bounds"
  | RSerializationFailed _ => text "Serialization failed"
  | RInvalidVolume => text "Not an XDVDFS volume"
  | RDirectoryEmpty => text "Directory is empty"
  | RDoesNotExist => text "Entry does not exist"
  | RStringEncodingError => text "Cannot decode string into UTF-8"
  | RNoDirent => text "Path exists, but dirent does not (likely root)"
  | RIsNotDirectory => text "Expected directory, found file"
  | RNameTooLong => text "File name is too long"
  | RInvalidFileName => text "Invalid file name"
  | RTooManyDirectoryEntries => text "Too many entries in directory"
  | RFileTooLarge => text "File is too large"
  end.
(** util.rs:41-58 [fmt]. *)
Definition read_message {E B} (show : E -> str) (bincode : B -> str) (x : read_error E B) : str :=
  match x with
  | RIOError e => text "IOError: " ++ show e
  | RSizeOutOfBounds offset size => text "File size out of bounds: " ++ decimal offset ++ text " for size " ++ decimal size
  | RSerializationFailed b => text "Serialization failed: " ++ bincode b
  | other => read_to_str other
  end.

(** write/mod.rs:13-21 [FileStructureError]. *)
Inductive structure_error (B : Type) :=
| SSerializationError (b : B)
| SStringEncodingError
| SFileNameTooLong
| SDuplicateFileName
| STooManyDirectoryEntries
| SFileTooLarge.
Arguments SSerializationError {B}. Arguments SStringEncodingError {B}. Arguments SFileNameTooLong {B}.
Arguments SDuplicateFileName {B}. Arguments STooManyDirectoryEntries {B}. Arguments SFileTooLarge {B}.
(** write/mod.rs:37-48 [to_str]. *)
Definition structure_to_str {B} (x : structure_error B) : str :=
  match x with
  | SSerializationError _ => text "Serialization failed"
  | SStringEncodingError => text "Cannot decode string into UTF-8"
  | SFileNameTooLong => text "File name is too long"
  | SDuplicateFileName => text "Duplicate file name"
  | STooManyDirectoryEntries => text "Too many entries in directory"
  | SFileTooLarge => text "File is too large"
  end.
(** write/mod.rs:50-61 [fmt]. *)
Definition structure_message {B} (bincode : B -> str) (x : structure_error B) : str :=
  match x with
  | SSerializationError b => text "Serialization failed: " ++ bincode b
  | other => structure_to_str other
  end.

(** write/mod.rs:24-29 [WriteError]. *)
Inductive write_error (D H C B : Type) :=
| WBlockDeviceError (e : D)
| WFilesystemHierarchyError (e : H)
| WFilesystemCopierError (e : C)
| WInvalidFileStructureError (e : structure_error B).
Arguments WBlockDeviceError {D H C B}. Arguments WFilesystemHierarchyError {D H C B}. Arguments WFilesystemCopierError {D H C B}. Arguments WInvalidFileStructureError {D H C B}.
(** write/mod.rs:72-81 [to_str]. *)
Definition write_to_str {D H C B} (x : write_error D H C B) : str :=
  match x with
  | WBlockDeviceError _ => text "Block device write failed"
  | WFilesystemHierarchyError _ => text "Filesystem hierarchy query failed"
  | WFilesystemCopierError _ => text "Filesystem to block device copy failed"
  | WInvalidFileStructureError _ => text "Failed to create XDVDFS filesystem"
  end.
(** write/mod.rs:83-95 [fmt]. *)
Definition write_message {D H C B} (dev : D -> str) (hier : H -> str) (copy : C -> str) (bincode : B -> str) (x : write_error D H C B) : str :=
  write_to_str x ++ text ": " ++
  match x with
  | WBlockDeviceError e => dev e
  | WFilesystemHierarchyError e => hier e
  | WFilesystemCopierError e => copy e
  | WInvalidFileStructureError e => structure_message bincode e
  end.

(** write/fs/xdvdfs.rs:27-31 [XDVDFSFilesystemError]. *)
Inductive image_fs_error (R W B : Type) :=
| IFilesystemReadErr (e : read_error R B)
| IBlockDevReadErr (e : R)
| IBlockDevWriteErr (e : W).
Arguments IFilesystemReadErr {R W B}. Arguments IBlockDevReadErr {R W B}. Arguments IBlockDevWriteErr {R W B}.
(** write/fs/xdvdfs.rs:33-41 [to_str]. *)
Definition image_fs_to_str {R W B} (x : image_fs_error R W B) : str :=
  match x with
  | IFilesystemReadErr _ => text "Failed to read XDVDFS filesystem"
  | IBlockDevReadErr _ => text "Failed to read from block device"
  | IBlockDevWriteErr _ => text "Failed to write to block device"
  end.
(** write/fs/xdvdfs.rs:43-53 [fmt]. *)
Definition image_fs_message {R W B} (rd : R -> str) (wr : W -> str) (bincode : B -> str) (x : image_fs_error R W B) : str :=
  image_fs_to_str x ++ text ": " ++
  match x with
  | IFilesystemReadErr e => read_message rd bincode e
  | IBlockDevReadErr e => rd e
  | IBlockDevWriteErr e => wr e
  end.

(** write/fs/remap.rs:34-39 [RemapOverlayFilesystemBuildingError]; [G] is wax's error. *)
Inductive building_error (E G : Type) :=
| UGlobBuildingError (g : G)
| UInvalidRewriteSubstitution (idx : N) (rewrite : str) (kind : rewrite_kind)
| UFilesystemError (e : E).
Arguments UGlobBuildingError {E G}. Arguments UInvalidRewriteSubstitution {E G}. Arguments UFilesystemError {E G}.
(** write/fs/remap.rs:41-57 [as_string]. *)
Definition building_message {E G} (show : E -> str) (wax : G -> str) (x : building_error E G) : str :=
  match x with
  | UFilesystemError e => text "error in underlying filesystem: " ++ show e
  | UGlobBuildingError g => text "failed to build glob pattern: " ++ wax g
  | UInvalidRewriteSubstitution idx rewrite kind =>
      text "invalid rewrite substitution """ ++ rewrite ++ text """ (at " ++ decimal idx ++ text "): " ++
      match kind with
      | NonDigitCharacter => text "expected digit character"
      | UnclosedBrace => text "unclosed brace"
      end
  end.
(** write/fs/remap.rs:67-72 [RemapOverlayError] and 80-87 [as_string]. *)
Inductive overlay_error (E : Type) := ONoSuchFile (image : str) | OUnderlyingError (e : E).
Arguments ONoSuchFile {E}. Arguments OUnderlyingError {E}.
Definition overlay_message {E} (show : E -> str) (x : overlay_error E) : str :=
  match x with
  | ONoSuchFile image => text "no host mapping for image path: " ++ image
  | OUnderlyingError e => text "error in underlying filesystem: " ++ show e
  end.
(** blockdev.rs:44-51 [OutOfBounds]. *)
Definition bounds_message (x : unit) : str := text "out of bounds".
