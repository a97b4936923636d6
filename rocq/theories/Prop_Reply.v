(** Property C159: a mounted image of any origin answers the requests. *)
From Verif Require Import M_Base M_Util M_Layout M_Read M_Remap M_Cli M_Fuse.
From Verif Require Import S_Read S_Img S_Fuse S_Sectors S_Cycle S_Total S_Reply.
From Verif Require Import P_Witness P_Fuse P_Reply.
From Coq Require Import Init.Byte Lia.
From Coq Require Import List.
Local Open Scope N_scope.

(** C159: mounting, and asking for attributes, opening and reading, are answered,
    whatever the image contains. *)
Theorem c159_simple_requests :
  (forall file, answer (mount_new file))
  /\ (forall fs ino, answer (fuse_getattr fs ino)) /\ (forall flags, answer (fuse_open flags))
  /\ (forall file fs ino offset size, mounted file fs -> answer (fuse_read fs ino offset size)).
Proof. exact (conj mount_answer (conj getattr_answer (conj open_answer read_answer))). Qed.
Print Assumptions c159_simple_requests.

(** Listing a directory ends, whatever the image contains. *)
Theorem c159_listing_ends :
  forall file fs ino offset full, mounted file fs -> ends (fun fuel => fuse_readdir fuel fs ino offset full).
Proof. exact readdir_total. Qed.
Print Assumptions c159_listing_ends.

(** Partial: listing a directory is answered if no name of its table crosses the end of
    a sector. Missing: tables where one does. *)
Theorem c159_listing_partial :
  forall file fs ino offset full, mounted file fs -> (forall t, dirtab_by_inode fs ino = Some t -> ~ crossing (m_dev fs) t) ->
  replies (fun fuel => fuse_readdir fuel fs ino offset full).
Proof. exact readdir_replies. Qed.
Print Assumptions c159_listing_partial.

(** Partial: a lookup is answered exactly if its search does not run in circles.
    Missing: searches that do. *)
Theorem c159_lookup_partial :
  forall file fs parent name, mounted file fs -> component name ->
  (replies (fun fuel => fuse_lookup fuel fs parent name) <->
   forall t, dirtab_by_inode fs parent = Some t -> ~ circles (m_dev fs) t [name]).
Proof. exact lookup_answered. Qed.
Print Assumptions c159_lookup_partial.

(** One record that crosses the end of a sector makes the listing of its directory
    panic, from the beginning and from any later position. *)
Theorem c159_listing_refuted :
  exists file fs, mounted file fs /\ snd (fuse_readdir 20 fs 1 0 (fun _ _ => false)) = Panic PAssert
    /\ snd (fuse_readdir 20 fs 1 100 (fun _ _ => false)) = Panic PAssert.
Proof. exists cross_img, cross_mount. split; [exact cross_mounted|]. vm_compute. split; reflexivity. Qed.
Print Assumptions c159_listing_refuted.

(** One lookup in a table whose records form a circle is never answered. *)
Theorem c159_lookup_refuted :
  exists file fs name, mounted file fs /\ component name /\ forall fuel, snd (fuse_lookup fuel fs 1 name) = OutOfFuel.
Proof.
  exists loop_img, loop_mount, [65]. split; [exact loop_mounted|]. split; [split; [discriminate|intros [H|[]]; discriminate]|]. exact loop_silent.
Qed.
Print Assumptions c159_lookup_refuted.

(** The image with the circle still answers a listing and the lookup of another name. *)
Example c159_example :
  mounted loop_img loop_mount
  /\ snd (fuse_lookup 9 loop_mount 1 [67]) = Err EIO
  /\ (exists a, snd (fuse_lookup 9 loop_mount 1 [66]) = Ok a)
  /\ match snd (fuse_readdir 9 loop_mount 1 0 (fun _ _ => false)) with Ok l => map rd_name l = [[46]; [46; 46]; [66]; [67]] | _ => False end
  /\ answer (fuse_read loop_mount 2 0 10).
Proof. split; [exact loop_mounted|]. vm_compute. repeat split. eexists. reflexivity. Qed.
