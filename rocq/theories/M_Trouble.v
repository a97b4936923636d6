(** The browser back end of xdvdfs-web when calls of the browser fail: unpacking
    (ops/browser.rs:116-187). Without failures this is [web_unpack] of M_Web. *)
From Verif Require Import M_Base M_Util M_Layout M_Read M_Img M_Dev M_Cli M_Unpack M_Host M_Web.
From Coq Require Import Init.Byte.
Local Open Scope N_scope.

(** What the browser does. [u_calls]: whether the n-th call for an entry of the directory
    succeeds; [u_reads]: what the image file looks like to the reader after n calls (every
    read asks for the file again, fs/mod.rs:63-88). *)
Record trouble := mkTrouble { u_calls : nat -> bool; u_reads : nat -> dev }.

(** A call that may fail. *)
Definition attempt {A} (U : trouble) (n : nat) (x : hprog A) : hprog A := fun w => if u_calls U n then x w else (w, Err HFault).
(** ops/browser.rs:160-178: the data of the file is fetched, a stream is opened, the data is
    written, and the stream is closed: four calls, of which only the last one has an effect
    on the file. *)
Definition fetch_and_write (U : trouble) (n : nat) (p : list str) (b : list byte) : hprog unit := fun w =>
  if forallb (u_calls U) (seq n 3) then attempt U (n + 3) (replace_file p b) w else (w, Err HFault).

(** ops/browser.rs:135-184; [n] calls were made. *)
Fixpoint br_unpack_loop (U : trouble) (fuel wf : nat) (accepts : str -> bool) (file : list byte) (base : N) (n : nat) (stack : list (list str * dentry)) (count : N)
    (w : world) (evs : list event) : world * list event * res uerr unit :=
  match stack with
  | [] => (w, evs, Ok tt)
  | (parent, e) :: stack =>
      match fuel with
      | O => (w, evs, OutOfFuel)
      | S fuel =>
          let name := name_str e in
          let r := d_region (d_dirent (e_node e)) in
          match dirent_table (d_dirent (e_node e)) with
          | Some tab =>
              run_host (attempt U n (create_directory accepts parent name) w) evs (fun dir w =>
              run_read (walk_dirent_tree wf (offset_dev (u_reads U (n + 1)) base) tab) w evs (fun es =>
              br_unpack_loop U fuel wf accepts file base (n + 1) (push_entries dir es stack) (count + len es) w
                (evs ++ [EFileCount (count + len es); EFileAdded [name] (r_size r)])))
          | None =>
              run_host (attempt U n (create_file accepts parent name) w) evs (fun p w =>
              if r_size r =? 0 then br_unpack_loop U fuel wf accepts file base (n + 1) stack count w evs
              else run_host (fetch_and_write U (n + 1) p (file_data file base r) w) evs (fun _ w =>
                   br_unpack_loop U fuel wf accepts file base (n + 5) stack count w (evs ++ [EFileAdded [name] (r_size r)])))
          end
      end
  end.
(** ops/browser.rs:116-187 [unpack_image]; the image [file] is held since the beginning
    (line 122), which does not fail here. *)
Definition br_unpack (U : trouble) (fuel : nat) (accepts : str -> bool) (file : list byte) (dest : list str) (w : world) : world * list event * res uerr unit :=
  run_read (offset_wrapper_new (u_reads U 0)) w [] (fun base =>
  let d := offset_dev (u_reads U 0) base in
  run_read (read_volume d) w [] (fun v =>
  run_read (walk_dirent_tree fuel d (v_root v)) w [] (fun es =>
  br_unpack_loop U fuel fuel accepts file base 0 (push_entries dest es []) (len es) w [EFileCount (len es)]))).
