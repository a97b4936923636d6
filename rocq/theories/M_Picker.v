(** Model of the buttons that open a dialog of the browser or of the desktop
    (xdvdfs-web picker/mod.rs, browser.rs, tauri.rs and their JavaScript), on the pages
    of M_Gui.v. A dialog is open until the user chooses something or gives up; what
    happens on the page meanwhile is not excluded by the code. *)
From Verif Require Import M_Base M_Util M_Img M_Unpack M_Gui.
Local Open Scope N_scope.

(** picker/mod.rs:49-54 [PickerKind]. *)
Inductive pkind := OpenFile | OpenDirectory | SaveFile (suggested : option str).
(** The two buttons of a page that open dialogs. *)
Inductive button := InputButton | OutputButton.
(** An open dialog: the button that opened it, and the kind the button had then. *)
Record dialog := mkDialog { d_button : button; d_kind : pkind }.

(** packing.rs:99-104, compress.rs:89-94 [to_picker_kind]. *)
Definition to_kind (t : itype) : pkind := match t with IFile => OpenFile | IDir => OpenDirectory end.
(** packing.rs:229-236 and 244-266, compress.rs:217-222 and 231-243: the button as it is
    shown, if it is. *)
Definition shown (k : kind) (v : view) (b : button) : option pkind :=
  match b with
  | InputButton => match v_input v with Some t => Some (to_kind t) | None => None end
  | OutputButton => match v_output v with
                    | Some s => Some (match k with PackPage => SaveFile s | CompressPage => OpenDirectory end)
                    | None => None
                    end
  end.
(** picker/mod.rs:83-95 and 104-126: a click opens a dialog. *)
Definition click (k : kind) (v : view) (b : button) : option dialog :=
  if v_enabled v then match shown k v b with Some p => Some (mkDialog b p) | None => None end else None.

(** picker/mod.rs:127-134 with browser.rs:20-43 and tauri.rs:16-44: what the dialog gives
    to the button. If nothing was chosen, the callback is not called (browser.js: the
    promise is rejected; tauri.js:6-8, 23-25 and 31-33). *)
Definition picked (p : pkind) (name : str) : pick := match p with OpenFile | SaveFile _ => PickFile name | OpenDirectory => PickDir name end.
(** packing.rs:235 and 259-265, compress.rs:221 and 235-241: what the button sends to the
    page. *)
Definition sends (k : kind) (b : button) (p : pick) : option bmsg :=
  match b, k, p with
  | InputButton, _, _ => Some (SetInput p)
  | OutputButton, PackPage, PickFile n => Some (SetOutput n)
  | OutputButton, CompressPage, PickDir n => Some (SetOutput n)
  | OutputButton, _, _ => None
  end.
Definition answer (k : kind) (b : builder) (d : dialog) (choice : option str) : res Empty_set (builder * option (pick * str)) :=
  match choice with
  | None => Ok (b, None)
  | Some n => match sends k (d_button d) (picked (d_kind d) n) with
              | Some m => builder_update b m
              | None => Ok (b, None)
              end
  end.

(** A button that is no longer shown is destroyed, and with it the callbacks of its
    dialogs. *)
Definition mounted (k : kind) (b : builder) (d : dialog) : bool :=
  match builder_view k b with
  | Ok v => match shown k v (d_button d) with Some _ => true | None => false end
  | _ => true
  end.

(** unpacking.rs:114-119 and 127-138: the page for unpacking. *)
Definition ushown (v : uview) (b : button) : option pkind :=
  match b with InputButton => Some OpenFile | OutputButton => if uv_output v then Some OpenDirectory else None end.
Definition uclick (v : uview) (b : button) : option dialog :=
  if uv_enabled v then match ushown v b with Some p => Some (mkDialog b p) | None => None end else None.
Definition usends (b : button) (p : pick) : option umsg :=
  match b, p with
  | InputButton, _ => Some (USetInput p)
  | OutputButton, PickDir n => Some (USetOutput n)
  | OutputButton, PickFile _ => None
  end.
Definition uanswer (u : unpacker) (d : dialog) (choice : option str) : res Empty_set (unpacker * option (str * str)) :=
  match choice with
  | None => Ok (u, None)
  | Some n => match usends (d_button d) (picked (d_kind d) n) with
              | Some m => unpacker_update u m
              | None => Ok (u, None)
              end
  end.
Definition umounted (u : unpacker) (d : dialog) : bool :=
  match ushown (unpacker_view u) (d_button d) with Some _ => true | None => false end.
