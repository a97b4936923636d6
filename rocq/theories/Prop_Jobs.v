(** Properties C142 and C143: the page learns how a job ends; the percentage. *)
From Verif Require Import M_Base M_Util M_Layout M_Read M_Img M_Cli M_Unpack M_Exiso M_Stdfs M_Desk M_Gui M_Jobs M_Host.
From Verif Require Import S_Img S_Cli S_Gui S_Jobs.
From Verif Require Import P_Base P_Witness P_Jobs.
From Coq Require Import Init.Byte Strings.String.
From Coq Require Import List.
Local Close Scope string_scope.
Local Open Scope N_scope.

(** C142: the page for packing shows how the job ends, and the job says so once, as its last word. *)
Theorem c142_pack_partial :
  forall E ms r, (exists o evs r0, ms = web_pack_job o evs r0 /\ r = web_pack_result o r0 /\ calm_result r) \/ (exists evs x, ms = desk_pack_job evs (Ok x : res E _) /\ r = answer x) ->
  ends_once PackPage ms /\ forall b, exists b', receives b ms b' /\ shows r (b_state b').
Proof. exact @c142_pack_lemma. Qed.
Print Assumptions c142_pack_partial.
(** The page for compressing. *)
Theorem c142_compress_partial :
  forall E ms r, (exists o evs r0 cevs c, ms = web_compress_job o evs r0 cevs c /\ r = web_compress_result o r0 c /\ calm_result r) \/ (exists evs cevs x, ms = desk_compress_job evs cevs (Ok x : res E _) /\ r = answer x) ->
  ends_once CompressPage ms /\ forall b, exists b', receives b ms b' /\ shows r (b_state b').
Proof. exact @c142_compress_lemma. Qed.
Print Assumptions c142_compress_partial.
(** The page for unpacking. *)
Theorem c142_unpack_partial :
  forall E ms r, (exists evs, ms = web_unpack_job evs r /\ calm_result r) \/ (exists evs x, ms = desk_unpack_job evs (Ok x : res E _) /\ r = answer x) ->
  forall u, exists u', ureceives u ms u' /\ ushows r (u_state u').
Proof. exact @c142_unpack_lemma. Qed.
Print Assumptions c142_unpack_partial.
(** Nothing is enabled on the page for packing before the last word. *)
Theorem c142_busy_partial :
  forall ms l1 m l2 b b', ends_once PackPage ms -> ms = l1 ++ m :: l2 -> is_packing (b_state b) = true -> receives b l1 b' -> stuck PackPage b'.
Proof. exact c142_busy_lemma. Qed.
Print Assumptions c142_busy_partial.

(** What a job reports fits what the page shows: files while it is packing, sectors while it is compressing. *)
Theorem c142_phase_partial :
  forall E ms, (exists o evs r, ms = web_pack_job o evs r) \/ (exists o evs r cevs c, ms = web_compress_job o evs r cevs c)
    \/ (exists evs x, ms = desk_pack_job evs (x : res E _)) \/ (exists evs cevs x, ms = desk_compress_job evs cevs (x : res E _)) ->
  forall l1 m l2 b b', ms = l1 ++ m :: l2 -> receives b l1 b' ->
  match m with UpdateProgress _ => is_packing (b_state b') = true | UpdateCompression _ => b_state b' = Compressing | _ => True end.
Proof. exact c142_phase_lemma. Qed.
Print Assumptions c142_phase_partial.

(** A job of the desktop application whose command panics, as packing from this image does, never ends for the page. *)
Theorem c142_panic_refuted :
  exists img cwd source dest, let w := mkWorld (hset (hset (fun _ => None) [] HDir) [text "i"] (HFile img)) None in
  let r := snd (desk_pack cwd (std_packer (fun _ => []) 20 Debug) source dest w) in
  (exists p, r = Panic p) /\ forall evs b b', is_packing (b_state b) = true -> receives b (desk_pack_job evs r) b' -> stuck PackPage b'.
Proof.
  exists (image_of (record 0 0 34 1 32 [x80]) [x61]), [], (text "i"), (text "o"). cbv zeta.
  match goal with |- (exists p, ?r = Panic p) /\ _ => assert (E : r = Panic PIndex) by (vm_compute; reflexivity) end.
  rewrite E. split; [exists PIndex; reflexivity|]. intros evs b b'. apply c142_panic_lemma.
Qed.
Print Assumptions c142_panic_refuted.

Definition c142_page := mkBuilder (Packing PackingImage) None None None 0 0.
Example c142_example :
  let ms := desk_pack_job [EFileCount 2; EFileAdded [text "a"] 33] (Ok (Some (text "no")) : res herr _) in
  exists b', receives c142_page ms b' /\ b_state b' = Error (text "no") /\ List.length ms = 4%nat.
Proof. eexists. cbv zeta. split; [repeat (econstructor; [reflexivity|]); constructor|]. split; reflexivity. Qed.

(** C143: the percentage is right for up to 42949672 sectors or files. *)
Theorem c143_percent_partial :
  forall m done count, done <= 42949672 -> percent32 m done count = Ok (percent done count).
Proof. exact c143_lemma. Qed.
Print Assumptions c143_percent_partial.
(** After an image of 42949673 sectors (88 GB) has been compressed, the page panics or shows zero. *)
Theorem c143_percent_refuted :
  exists n b', receives c142_page [UpdateCompression (SectorCount n); UpdateCompression CompressionFinished] b' /\ n < 2 ^ 32
   /\ percent (b_done b') (b_count b') = 100 /\ percent32 Debug (b_done b') (b_count b') = Panic POverflow /\ percent32 Release (b_done b') (b_count b') = Ok 0.
Proof. exists 42949673. eexists. split; [repeat (econstructor; [reflexivity|]); constructor|]. vm_compute. auto. Qed.
Print Assumptions c143_percent_refuted.
Example c143_example : percent32 Debug 3 4 = Ok 75 /\ percent32 Release 42949672 42949672 = Ok 100 /\ percent32 Debug 0 0 = Ok 0.
Proof. vm_compute. auto. Qed.
