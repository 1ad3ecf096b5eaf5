(** * What is served: C01 *)
From Verif Require Import DemoRun.

(** ** C01: the served notification never dangles *)
(** [f] serves the notification [n]: the document is at its public path, and
    every file it lists is at the path that belongs to its URI, with content
    that has the listed hash. *)
Definition serves (c : config) (base name : string) (x : ext) (f : fs) (n : notification) : Prop :=
  f !! notif_path c name = Some (File (x_write_notif x n) None) /\
  forall u h, (u, h) ∈ refs n -> exists rel b m,
    u = base +:+ rel /\ f !! public_path c rel = Some (File b m) /\ x_hash x b = h.

Theorem C01_never_dangles c base name x src k f :
  cfg_ok c base name ->
  stable_source x (c_max_deltas c) src ->
  (forall i, good_notif base name (src i)) ->
  clean_snapshots x ->
  follows c base name x src k f ->
  f !! notif_path c name = None \/ exists n, serves c base name x f n.
Proof.
  intros Hc Hst Hg Hsn Hf. destruct (follows_inv c base name x src Hc Hst Hg Hsn k f Hf) as [L [_ _ Hn _ Hfi _]].
  destruct Hn as [[_ ?]|(n & HN & Hr)]; [by left|]. right. exists n. split; [done|]. intros u h Hin.
  rewrite Hr in Hin. apply elem_of_list_fmap in Hin as ([rel h'] & [= -> ->] & Hin). exists rel.
  destruct (Hfi _ Hin) as (b & m & H1 & H2). by exists b, m.
Qed.

(** The tree after three runs, with a session change in the third, satisfies
    the hypotheses, and so does every instant of a fourth run; the document
    served after the second run lists four files. *)
Example C01_applies : follows demo_config base name safe_ext src3 2 (tree3 3) /\
  exists n, serves demo_config base name safe_ext (tree3 2) n /\ length (refs n) = 4.
Proof.
  split; [apply (follows3 3); lia|].
  set (n := mkNotif uuid_A 5 (base +:+ snap_rel uuid_A 5) (demo_hash (snap_doc uuid_A 5))
              ((fun i => mkDI i (base +:+ delta_rel uuid_A i) (demo_hash (delta_doc uuid_A i))) <$> [5; 4; 3]%N)).
  exists n. split; [|done].
  assert (E : tree3 2 !! notif_path demo_config name = Some (File (x_write_notif safe_ext n) None)) by (vm_compute; reflexivity).
  split; [done|]. intros u h Hin.
  assert (Hall : Forall (fun r => exists rel b m, r.1 = base +:+ rel /\
    tree3 2 !! public_path demo_config rel = Some (File b m) /\ x_hash safe_ext b = r.2) (refs n)).
  { repeat (apply Forall_cons; split); [..|apply Forall_nil; done].
    - exists (snap_rel uuid_A 5). do 2 eexists. split; [reflexivity|]. split; vm_compute; reflexivity.
    - exists (delta_rel uuid_A 5). do 2 eexists. split; [reflexivity|]. split; vm_compute; reflexivity.
    - exists (delta_rel uuid_A 4). do 2 eexists. split; [reflexivity|]. split; vm_compute; reflexivity.
    - exists (delta_rel uuid_A 3). do 2 eexists. split; [reflexivity|]. split; vm_compute; reflexivity. }
  rewrite Forall_forall in Hall. apply (Hall (u, h) Hin).
Qed.
Print Assumptions C01_never_dangles.
