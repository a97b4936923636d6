(** Failures of the host are reported (C99). *)
From Verif Require Import M_Base M_Util M_Layout M_Read M_Img M_Dev M_Xfs M_Remap M_Cli M_Unpack M_Exiso M_Stdfs M_Build M_Web M_Host.
From Verif Require Import S_Avl S_Codec S_Read S_Img S_Dev S_Xfs S_Check S_Cli S_Unpack S_Exiso S_Stdfs S_Fault.
From Verif Require Import P_Base P_Read P_Find P_Tree P_More P_Repack P_Check P_Cli P_Host P_Mono P_Unpack P_Exiso P_Stdfs.
From Verif Require Import M_Host.
From Coq Require Import Init.Byte Lia.
Local Open Scope N_scope.

Lemma unfailing_fs w : w_fs (unfailing w) = w_fs w. Proof. reflexivity. Qed.
Lemma unfailing_spend w n : spend (unfailing w) n = n. Proof. reflexivity. Qed.
Lemma unfailing_after w h n : after (unfailing w) h n = unfailing (after w h n). Proof. reflexivity. Qed.

Lemma honest_ret {A} (a : A) : honest (hret a).
Proof. intros w w' b [= <- <-]. reflexivity. Qed.
Lemma honest_bind {A B} (x : hprog A) (k : A -> hprog B) : honest x -> (forall a, honest (k a)) -> honest (hbind x k).
Proof.
  intros Hx Hk w w' b. unfold hbind. destruct (x w) as [w1 [a|e|p|]] eqn:E; try discriminate. intros H. rewrite (Hx _ _ _ E). apply Hk. exact H.
Qed.
Lemma honest_res {A} (f : world -> res herr A) : (forall w, f (unfailing w) = f w) -> honest (hres f).
Proof. intros Hf w w' a. unfold hres. intros [= <- H]. rewrite Hf, H. reflexivity. Qed.
Lemma honest_fs {A} (f : host -> res herr A) : honest (hres (fun w => f (w_fs w))).
Proof. apply honest_res. reflexivity. Qed.

Lemma honest_open cwd s : honest (open_trunc cwd s).
Proof.
  intros w w' p. unfold open_trunc. destruct (has_nul (pcomps s)); [discriminate|]. destruct s as [|c0 s0]; [discriminate|]. destruct (dirlike (c0 :: s0)); [discriminate|].
  rewrite unfailing_fs. destruct (hlocate (w_fs w) (hstart cwd (c0 :: s0)) (pcomps (c0 :: s0))) as [[d [c|]]|e|e|]; try discriminate.
  destruct (w_fs w (d ++ [c])) as [[|b]|]; try discriminate; destruct (spend w 1 <? 1); try discriminate; intros [= <- <-]; reflexivity.
Qed.
Lemma honest_write p b : honest (write_new p b).
Proof.
  intros w w' a. unfold write_new. cbv zeta. rewrite unfailing_spend, unfailing_fs, unfailing_after, N.ltb_irrefl. destruct (N.ltb_spec (spend w (len b)) (len b)); [discriminate|].
  intros [= <- <-]. assert (E : spend w (len b) = len b) by (unfold spend in *; destruct (w_left w); lia). rewrite E. reflexivity.
Qed.
(** A failure of mkdir leaves nothing at its place. *)
Lemma honest_mkdir start cs : forall w w' r, mkdir start cs w = (w', r) ->
  (r = Err HFault /\ is_dir_at (w_fs w') start cs = false) \/ mkdir start cs (unfailing w) = (unfailing w', r).
Proof.
  intros w w' r. unfold mkdir, is_dir_at. destruct (has_nul cs); [intros [= <- <-]; right; reflexivity|]. rewrite unfailing_fs.
  destruct (hlocate (w_fs w) start cs) as [[d [c|]]|e|e|] eqn:El; try (intros [= <- <-]; right; reflexivity).
  destruct (w_fs w (d ++ [c])) as [x|] eqn:E; [intros [= <- <-]; right; reflexivity|]. destruct (spend w 1 <? 1); intros [= <- <-]; [|right; reflexivity].
  left. split; [reflexivity|]. rewrite El, E. reflexivity.
Qed.
Lemma honest_create_dir cwd s : honest (create_dir cwd s).
Proof.
  intros w w' a H. unfold create_dir in *. destruct s; [discriminate|]. destruct (honest_mkdir _ _ _ _ _ H) as [(F & _)|G]; [discriminate|exact G].
Qed.
Lemma honest_mkdir_all start : forall rcs, honest (mkdir_all start rcs).
Proof.
  induction rcs as [|c rcs IH]; intros w w' a; cbn [mkdir_all].
  - destruct (mkdir start (rev []) w) as [w1 r] eqn:E. destruct (honest_mkdir _ _ _ _ _ E) as [(-> & F)|G].
    + rewrite F. discriminate.
    + rewrite G. destruct r as [x|[]|p|]; try discriminate; try (destruct (is_dir_at (w_fs w1) start (rev [])) eqn:D; [|discriminate]; intros [= <- <-]; rewrite unfailing_fs, D; reflexivity).
  - assert (A : honest (fun w => match mkdir start (rev (c :: rcs)) w with
                                 | (w, Err e) => if is_dir_at (w_fs w) start (rev (c :: rcs)) then (w, Ok tt) else (w, Err e)
                                 | r => r
                                 end)).
    { intros v v' b. destruct (mkdir start (rev (c :: rcs)) v) as [v1 r] eqn:E. destruct (honest_mkdir _ _ _ _ _ E) as [(-> & F)|G].
      - rewrite F. discriminate.
      - rewrite G. destruct r as [x|e|p|]; try discriminate; [intros [= <- <-]; reflexivity|]. destruct (is_dir_at (w_fs v1) start (rev (c :: rcs))) eqn:D; [|discriminate].
        intros [= <- <-]. rewrite unfailing_fs, D. reflexivity. }
    destruct (mkdir start (rev (c :: rcs)) w) as [w1 r] eqn:E. destruct (honest_mkdir _ _ _ _ _ E) as [(-> & F)|G].
    + rewrite F. discriminate.
    + rewrite G. destruct r as [x|[]|p|]; try discriminate; try (destruct (is_dir_at (w_fs w1) start (rev (c :: rcs))) eqn:D; [|discriminate]; intros [= <- <-]; rewrite unfailing_fs, D; reflexivity).
      * intros [= <- <-]. reflexivity.
      * apply (honest_bind _ _ IH (fun _ => A)).
Qed.
Lemma honest_create_dir_all cwd s : honest (create_dir_all cwd s).
Proof. unfold create_dir_all. destruct s; [apply honest_ret|apply honest_mkdir_all]. Qed.

(** ** Unpacking *)
Lemma honest_copy_file cwd file base s r : honest (copy_file cwd file base s r).
Proof. apply honest_bind; [apply honest_open|]. intros p. destruct (region_is_empty r); [apply honest_ret|apply honest_write]. Qed.
Lemma honest_copyout cwd file base dest tree : honest (copyout_loop cwd file base dest tree).
Proof.
  induction tree as [|[dir e] tree IH]; [apply honest_ret|]. cbn [copyout_loop]. apply honest_bind; [apply honest_create_dir_all|]. intros _. apply honest_bind; [|intros _; exact IH].
  destruct (is_directory _); [apply honest_create_dir|]. destruct (_ =? 0); [apply honest_ret|apply honest_copy_file].
Qed.
Lemma honest_uhost (f : hprog unit) : honest f -> honest (fun w => uhost (f w)).
Proof.
  intros Hf w w' a. unfold uhost. destruct (f w) as [w1 [x|e|p|]] eqn:E; cbn [fst snd map_err]; try discriminate. intros [= <- <-]. rewrite (Hf _ _ _ E). reflexivity.
Qed.
Lemma honest_uread {A} (r : res rerr A) (k : A -> world -> world * res uerr unit) : (forall a, honest (k a)) -> honest (fun w => uread r w (fun a => k a w)).
Proof. intros Hk w w' a. unfold uread. destruct r; try discriminate. apply Hk. Qed.
Lemma honest_directory fuel cwd file base dest r : honest (copyout_directory fuel cwd file base dest r).
Proof. apply (honest_uread _ (fun tree w => uhost (copyout_loop cwd file base dest tree w))). intros tree. apply honest_uhost, honest_copyout. Qed.
Lemma honest_unpack fuel cwd image_path file target : honest (cmd_unpack fuel cwd image_path file target).
Proof.
  intros w w' a. unfold cmd_unpack. destruct (unpack_target image_path target); try discriminate. unfold uread. destruct (offset_wrapper_new _); try discriminate.
  destruct (read_volume _); try discriminate. apply honest_directory.
Qed.
Lemma honest_copyout_cmd fuel cwd file src dest : honest (cmd_copyout fuel cwd file src dest).
Proof.
  intros w w' a. unfold cmd_copyout, uread. destruct (offset_wrapper_new _); try discriminate. destruct (read_volume _); try discriminate. destruct (str_eqb src [SLASH]); [apply honest_directory|].
  destruct (walk_path _ _ _ _) as [e| | |]; try discriminate. destruct (dirent_table _); [apply honest_directory|]. apply (honest_uhost _ (honest_copy_file _ _ _ _ _)).
Qed.

(** ** Packing *)
Lemma honest_pack_path cwd pk source image : honest (cmd_pack_path cwd pk source image).
Proof.
  unfold cmd_pack_path. apply honest_bind; [apply (honest_fs (fun h => ok_or (h source) HNotFound))|]. intros _.
  apply honest_bind; [apply honest_res; reflexivity|]. intros _. apply honest_bind; [apply honest_res; reflexivity|]. intros _.
  apply honest_bind; [apply honest_open|]. intros p w w' a. rewrite unfailing_fs. destruct (pk (w_fs w) source) as [b r]. intros [= <- ->]. reflexivity.
Qed.
Lemma honest_pack cwd pk source image : honest (cmd_pack cwd pk source image).
Proof.
  unfold cmd_pack. apply honest_bind; [apply honest_res; reflexivity|]. intros [p n]. apply honest_bind; [apply honest_res; destruct image; reflexivity|]. intros i. apply honest_pack_path.
Qed.
Lemma honest_create cwd pk dir file rest : honest (exiso_create cwd pk dir file rest).
Proof.
  unfold exiso_create. apply honest_bind; [apply honest_res; reflexivity|]. intros tasks. generalize ((dir, file) :: tasks). clear. intros l.
  induction l as [|[d f] l IH]; [apply honest_ret|]. cbn [create_all]. apply honest_bind; [|intros _; exact IH].
  unfold exiso_create_single. apply honest_bind; [apply honest_res; reflexivity|]. intros [p n]. destruct (is_hdir n); [apply honest_pack_path|apply honest_res; reflexivity].
Qed.
Lemma honest_rename p q : honest (rename_file p q).
Proof.
  intros w w' a. unfold rename_file. rewrite unfailing_fs. destruct (w_fs w p) as [[|b]|]; try discriminate. destruct (w_fs w q) as [[|b']|]; try discriminate; destruct (spend w 1 <? 1); try discriminate; intros [= <- <-]; reflexivity.
Qed.
Lemma honest_remove p : honest (remove_file p).
Proof. intros w w' a. unfold remove_file. rewrite unfailing_fs. destruct (w_fs w p) as [[|b]|]; try discriminate. destruct (spend w 1 <? 1); try discriminate. intros [= <- <-]. reflexivity. Qed.
Lemma honest_repack cwd pk directory delete xs : honest (exiso_repack cwd pk directory delete xs).
Proof.
  induction xs as [|x xs IH]; [apply honest_ret|]. cbn [exiso_repack]. apply honest_bind; [|intros _; exact IH]. unfold repack_one.
  apply honest_bind; [apply honest_res; reflexivity|]. intros [source n]. destruct (is_hdir n); [apply honest_res; reflexivity|]. cbv zeta.
  apply honest_bind; [apply honest_rename|]. intros _. apply honest_bind; [apply honest_res; destruct directory; reflexivity|]. intros dest.
  apply honest_bind; [apply honest_pack_path|]. intros _. destruct delete; [apply honest_remove|apply honest_ret].
Qed.
Lemma honest_build {O} toml mk pk cwd a : honest (@build_image O toml mk pk cwd a).
Proof.
  unfold build_image. apply honest_bind; [apply honest_res; reflexivity|]. intros [[root o] image]. destruct (b_dry_run a); [apply honest_ret|].
  apply honest_bind; [apply honest_open|]. intros p w w' x. rewrite unfailing_fs. destruct (pk (w_fs w) root o) as [b [u|e|e|]]; cbn [bind]; try discriminate. intros [= <- <-]. reflexivity.
Qed.

(** ** In the browser *)
Lemma honest_web_dir accepts p n : honest (create_directory accepts p n).
Proof.
  intros w w' a. unfold create_directory. rewrite unfailing_fs. destruct (negb _); [discriminate|]. destruct (w_fs w (p ++ [n])) as [[|b]|]; try discriminate; [intros [= <- <-]; reflexivity|].
  destruct (w_fs w p) as [[|b]|]; try discriminate. destruct (spend w 1 <? 1); [discriminate|]. intros [= <- <-]. reflexivity.
Qed.
Lemma honest_web_file accepts p n : honest (create_file accepts p n).
Proof.
  intros w w' a. unfold create_file. rewrite unfailing_fs. destruct (negb _); [discriminate|]. destruct (w_fs w (p ++ [n])) as [[|b]|]; try discriminate; [intros [= <- <-]; reflexivity|].
  destruct (w_fs w p) as [[|b]|]; try discriminate. destruct (spend w 1 <? 1); [discriminate|]. intros [= <- <-]. reflexivity.
Qed.
Lemma honest_web_replace p b : honest (replace_file p b).
Proof.
  intros w w' a. unfold replace_file. rewrite unfailing_fs, unfailing_spend, N.ltb_irrefl. destruct (spend w (len b) <? len b); [discriminate|]. intros [= <- <-]. reflexivity.
Qed.
Lemma honest_web_loop accepts file base wf : forall fuel stack count w evs w' evs',
  web_unpack_loop fuel wf accepts file base stack count w evs = (w', evs', Ok tt) ->
  web_unpack_loop fuel wf accepts file base stack count (unfailing w) evs = (unfailing w', evs', Ok tt).
Proof.
  induction fuel as [|fuel IH]; intros [|[p e] stack] count w evs w' evs'; cbn [web_unpack_loop]; try discriminate; try (intros [= <- <-]; reflexivity).
  destruct (dirent_table _) as [tab|].
  - destruct (create_directory accepts p (name_str e) w) as [w1 [dir|x|x|]] eqn:E; cbn [run_host]; try discriminate. rewrite (honest_web_dir _ _ _ _ _ _ E). cbn [run_host].
    destruct (walk_dirent_tree _ _ _); cbn [run_read]; try discriminate. apply IH.
  - destruct (create_file accepts p (name_str e) w) as [w1 [q|x|x|]] eqn:E; cbn [run_host]; try discriminate. rewrite (honest_web_file _ _ _ _ _ _ E). cbn [run_host].
    destruct (r_size _ =? 0); [apply IH|]. destruct (replace_file q _ w1) as [w2 [u|x|x|]] eqn:E2; cbn [run_host]; try discriminate. rewrite (honest_web_replace _ _ _ _ _ E2). cbn [run_host]. apply IH.
Qed.
Lemma honest_web fuel accepts file dest w w' evs : web_unpack fuel accepts file dest w = (w', evs, Ok tt) -> web_unpack fuel accepts file dest (unfailing w) = (unfailing w', evs, Ok tt).
Proof.
  unfold web_unpack. destruct (offset_wrapper_new _); cbn [run_read]; try discriminate. destruct (read_volume _); cbn [run_read]; try discriminate.
  destruct (walk_dirent_tree _ _ _); cbn [run_read]; try discriminate. apply honest_web_loop.
Qed.

(** ** Success means that everything has been done *)
Lemma file_tree_more fuel fuel' d r l : (fuel <= fuel')%nat -> file_tree fuel d r = Ok l -> file_tree fuel' d r = Ok l.
Proof. intros Hf. apply (file_tree_mono d d (fun o n b H => H)). exact Hf. Qed.
Lemma unpack_more fuel fuel' cwd image_path file target w w' : (fuel <= fuel')%nat ->
  cmd_unpack fuel cwd image_path file target w = (w', Ok tt) -> cmd_unpack fuel' cwd image_path file target w = (w', Ok tt).
Proof.
  intros Hf. unfold cmd_unpack. destruct (unpack_target image_path target); try discriminate. unfold uread. destruct (offset_wrapper_new _); try discriminate.
  destruct (read_volume _); try discriminate. unfold copyout_directory, uread. destruct (file_tree fuel _ _) as [l| | |] eqn:E; try discriminate. rewrite (file_tree_more _ _ _ _ _ Hf E). auto.
Qed.
Lemma complete_unpack fuel cwd image_path file dest t w w' : is_image file t -> unix_tree t -> ready_for cwd dest t (unfailing w) ->
  cmd_unpack fuel cwd image_path file (Some dest) w = (w', Ok tt) -> restored (place cwd dest) t (w_fs w) (w_fs w').
Proof.
  intros HI HU HR HE. apply honest_unpack in HE. destruct (c48_lemma cwd image_path file dest t (unfailing w) HI HU HR) as (w2 & (k & R) & W).
  pose proof (unpack_more fuel (Nat.max k fuel) _ _ _ _ _ _ ltac:(lia) HE) as HE'. rewrite R in HE' by lia. injection HE' as ->. exact W.
Qed.
