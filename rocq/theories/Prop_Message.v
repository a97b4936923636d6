(** Property C134: messages tell errors apart. *)
From Verif Require Import P_Vm.
From Verif Require Import M_Base M_Remap M_Cli M_Message S_Message P_Base P_Message.
From Coq Require Import Strings.String.
From Coq Require Import List.
Local Close Scope string_scope.
Local Open Scope N_scope.

(** C134: if the messages of the device, of bincode and of wax tell their errors apart,
    then so do the messages of this crate, including all details. *)
Theorem c134_read : forall E B (show : E -> str) (bincode : B -> str), tells_apart show -> tells_apart bincode -> tells_apart (read_message show bincode).
Proof. exact @read_apart. Qed.
Print Assumptions c134_read.
Theorem c134_write :
  forall D H C B (dev : D -> str) (hier : H -> str) (copy : C -> str) (bincode : B -> str), tells_apart dev -> tells_apart hier -> tells_apart copy -> tells_apart bincode ->
  tells_apart (write_message dev hier copy bincode).
Proof. exact @write_apart. Qed.
Print Assumptions c134_write.
Theorem c134_image_fs :
  forall R W B (rd : R -> str) (wr : W -> str) (bincode : B -> str), tells_apart rd -> tells_apart wr -> tells_apart bincode -> tells_apart (image_fs_message rd wr bincode).
Proof. exact @image_fs_apart. Qed.
Print Assumptions c134_image_fs.
Theorem c134_building : forall E G (show : E -> str) (wax : G -> str), tells_apart show -> tells_apart wax -> tells_apart (building_message show wax).
Proof. exact @building_apart. Qed.
Print Assumptions c134_building.
Theorem c134_overlay : forall E (show : E -> str), tells_apart show -> tells_apart (overlay_message show).
Proof. exact @overlay_apart. Qed.
Print Assumptions c134_overlay.
(** The message of an error ends in the message of its cause. *)
Theorem c134_causes :
  forall D H C B R W (dev : D -> str) (hier : H -> str) (copy : C -> str) (bincode : B -> str) (rd : R -> str) (wr : W -> str),
  (forall e, ends_with (write_message dev hier copy bincode (WBlockDeviceError e)) (dev e))
  /\ (forall e, ends_with (write_message dev hier copy bincode (WFilesystemHierarchyError e)) (hier e))
  /\ (forall e, ends_with (write_message dev hier copy bincode (WFilesystemCopierError e)) (copy e))
  /\ (forall e, ends_with (write_message dev hier copy bincode (WInvalidFileStructureError e)) (structure_message bincode e))
  /\ (forall b, ends_with (structure_message bincode (SSerializationError b)) (bincode b))
  /\ (forall e, ends_with (read_message rd bincode (RIOError e)) (rd e))
  /\ (forall e, ends_with (image_fs_message rd wr bincode (IFilesystemReadErr e)) (read_message rd bincode e))
  /\ (forall e, ends_with (overlay_message rd (OUnderlyingError e)) (rd e)).
Proof. exact @messages_nested. Qed.
Print Assumptions c134_causes.

(** Texts tell themselves apart; a message of packing from an image through a mapping. *)
Definition c134_id (s : str) : str := s.
Example c134_example :
  tells_apart c134_id /\ tells_apart bounds_message
  /\ write_message c134_id (overlay_message (image_fs_message bounds_message c134_id c134_id)) c134_id c134_id (WFilesystemHierarchyError (OUnderlyingError (IFilesystemReadErr (RIOError tt))))
     = text "Filesystem hierarchy query failed: error in underlying filesystem: Failed to read XDVDFS filesystem: IOError: out of bounds"
  /\ building_message c134_id c134_id (UInvalidRewriteSubstitution 12 (text "a"" (at 3)") UnclosedBrace) = text "invalid rewrite substitution ""a"" (at 3)"" (at 12): unclosed brace"
  /\ read_message c134_id c134_id (RSizeOutOfBounds 5 40) = text "File size out of bounds: 5 for size 40".
Proof. split; [intros x y H; exact H|]. split; [intros [] [] _; reflexivity|]. vm_all. Qed.
