(** Specification vocabulary for build-image and image-spec (C79-C83). *)
From Verif Require Import M_Base M_Util M_Layout M_Read M_Img M_Remap M_Host M_Exiso M_Build S_Img S_Unpack.
From Coq Require Import Init.Byte.
Local Open Scope N_scope.

(** The documented forms of a map rule: "host:image", and "!host" without an image
    path. *)
Inductive rule_of : str -> str * str -> Prop :=
| ro_map h i : rule_of (h ++ 58 :: i) (h, i)
| ro_exclude h : ~ In 58 h -> rule_of (33 :: h) (33 :: h, []).

(** Arguments without and with a spec in the source directory. *)
Definition by_options (rules : list str) (output : option str) (dry : bool) (source image : option str) : build_args :=
  mkBuildArgs None (Some rules) output dry source image.
Definition by_spec (dry : bool) (source image : option str) : build_args := mkBuildArgs None None None dry source image.

Definition source_of (cwd : list str) (a : build_args) : str := match b_source a with Some s => s | None => pstr cwd end.

(** The output field of the spec that is in use, for the source directory [p]. *)
Definition output_field (toml : list byte -> option spec) (h : host) (a : build_args) (place_of_spec : list str) (output : option str) : Prop :=
  match b_map a with
  | Some _ => output = None
  | None => h place_of_spec = None /\ output = None
            \/ exists b s, h place_of_spec = Some (HFile b) /\ toml b = Some s /\ output = s_output s
  end.

(** Where the image goes: to the path given, to the output field relative to the
    source directory [p], or beside that directory. *)
Definition image_goes_to (cwd p : list str) (image output : option str) (o : list str) : Prop :=
  match image, output with
  | Some i, _ => no_dotdot i /\ o = place cwd i
  | None, Some f => no_dotdot f /\ o = place p f
  | None, None => exists d n, p = d ++ [n] /\ o = d ++ [n ++ [46; 120; 105; 115; 111; 46; 105; 115; 111]]
  end.

(** Only the file at [o] differs. *)
Definition writes_only (o : list str) (h h' : host) : Prop :=
  (exists b, h' o = Some (HFile b)) /\ forall q, q <> o -> h' q = h q.
