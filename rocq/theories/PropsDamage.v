(** * C86: a delta file that was lost or damaged is not repaired *)
From Coq Require Import Sorted ZifyN ZifyNat ZifyBool.
From Verif Require Import PropsRun RunDone PropsHistory DemoRun Refuted PropsRsync PropsSource PropsRecover PropsStateLost.
From Verif Require Import FsWf HistoryProofs.

(** ** Specification *)
(** [f] is what others made of krill-sync's tree [f0]: any files may be changed or
    missing, but not the state file. *)
Record damaged (c : config) (base name : string) (f0 f : fs) : Prop := {
  da_mirror : mirror any_notif c base name f0;
  da_wf : wf f;
  da_state : f !! rrdp_state_path c = f0 !! rrdp_state_path c }.
(** The notification is of session [s] and lists a delta with serial [k]; what
    else it lists is not published at, above or below the place of [rel]. *)
Record still_lists (c : config) (base : string) (s : uuid) (k : N) (rel : string) (n : notification) : Prop := {
  sl_session : n_session n = s;
  sl_delta : exists di, di ∈ n_deltas n /\ di_serial di = k;
  sl_snap : forall r, n_snap_uri n = base +:+ r -> apart (public_path c rel) (public_path c r);
  sl_other : forall di r, di ∈ n_deltas n -> di_serial di <> k -> di_uri di = base +:+ r ->
    apart (public_path c rel) (public_path c r) }.

(** ** Proofs *)
Lemma head_highest (l : list delta_state) d : StronglySorted (fun a b => (ds_serial b <= ds_serial a)%N) l -> d ∈ l ->
  exists h l', l = h :: l' /\ (ds_serial d <= ds_serial h)%N.
Proof.
  intros Hs Hd. destruct Hs as [|h l' Hs Hh]; [by apply elem_of_nil in Hd|]. exists h, l'. split; [done|].
  apply elem_of_cons in Hd as [->|Hd]; [done|]. rewrite Forall_forall in Hh. by apply Hh.
Qed.
Lemma sorted_last_max (l : list delta_info) d m : StronglySorted (fun a b => (di_serial a <= di_serial b)%N) l ->
  last l = Some m -> d ∈ l -> (di_serial d <= di_serial m)%N.
Proof.
  induction 1 as [|a l Hs IH Ha]; [done|]. intros Hl Hd. destruct l as [|b l].
  - injection Hl as <-. by apply elem_of_list_singleton in Hd as ->.
  - change (last (b :: l) = Some m) in Hl. apply elem_of_cons in Hd as [->|Hd]; [|by apply IH].
    rewrite Forall_forall in Ha. apply Ha. by eapply last_Some_elem_of.
Qed.
(** the deltas that krill-sync takes from such a notification: there is one at
    least as new, and it is not older than the cutoff *)
Lemma taken_last x limit n0 n di : in_use x limit n0 n -> di ∈ n_deltas n0 ->
  exists m, m ∈ n_deltas n /\ (di_serial di <= di_serial m)%N /\ (cutoff_of n <= di_serial m)%N.
Proof.
  intros (_ & _ & _ & _ & (older & Hp & Hso & _) & _ & Hl) Hin.
  destruct Hl as (m & Hm & _); [intros E; rewrite E in Hin; by apply elem_of_nil in Hin|].
  assert (Hla : last (older ++ n_deltas n) = Some m).
  { rewrite last_app. by rewrite Hm. }
  exists m. split; [by apply last_Some_elem_of|]. split.
  - eapply sorted_last_max; [exact Hso|done|]. by rewrite Hp.
  - unfold cutoff_of. destruct (n_deltas n) as [|a l] eqn:E; [done|].
    eapply sorted_last_max; [exact Hso|done|]. apply elem_of_app. right. by left.
Qed.

Lemma forall2_in_l {A B} (R : A -> B -> Prop) l k a : Forall2 R l k -> a ∈ l -> exists b, b ∈ k /\ R a b.
Proof.
  induction 1 as [|a' b l k Hr _ IH]; [by intros ?%elem_of_nil|]. intros [->|H]%elem_of_cons; [exists b; split; [left|done]|].
  destruct (IH H) as (b' & H1 & H2). exists b'. split; [by right|done].
Qed.
Lemma forall2_in_r {A B} (R : A -> B -> Prop) l k b : Forall2 R l k -> b ∈ k -> exists a, a ∈ l /\ R a b.
Proof. intros H%Forall2_flip Hb. by apply (forall2_in_l (flip R) k l b). Qed.

(** what krill-sync has recorded: the session, and a delta at least as new *)
Definition past (s : uuid) (k : N) (st : rrdp_state) : Prop :=
  (exists sn, st_snap st = Some sn /\ ss_session sn = s) /\ exists d, d ∈ st_deltas st /\ (k <= ds_serial d)%N.

Section stays.
  Context (c : config) (base name : string) (e : env) (f : fs) (s : uuid) (k : N) (rel : string).
  Context (Hs : sane c base name e f) (Hgr : good_rel name rel).
  Context (HP : forall n, offers c e f n -> still_lists c base s k rel n).
  Context (Hp : forall st, starts_from c base name f st -> past s k st).
  Notation p := (public_path c rel).

  Lemma not_reset st n0 n sg f1 : at_move c base name e f st n0 n sg f1 -> sg_reset sg = false /\ n_session n = s.
  Proof using HP Hp.
    intros Ha. pose proof (am_staged _ _ _ _ _ _ _ _ _ _ Ha) as So. destruct (source_takes _ _ _ _ _ (so_source _ _ _ _ _ _ _ _ So)) as [Ho Hu].
    destruct (Hp _ (am_start _ _ _ _ _ _ _ _ _ _ Ha)) as [(sn & Es & E) _].
    assert (En : n_session n = s) by (rewrite (proj1 Hu); by apply sl_session with c base k rel, HP).
    split; [|done]. pose proof (so_new _ _ _ _ _ _ _ _ So) as Hn. unfold compare_version in Hn. rewrite Es in Hn.
    rewrite bool_decide_eq_true_2 in Hn by congruence. cbn in Hn. destruct (ss_serial sn ?= n_serial n)%N; congruence.
  Qed.
  Lemma damage_entry st n0 n sg f1 en : at_move c base name e f st n0 n sg f1 -> en ∈ staged_entries sg -> apart p (public_path c en.1).
  Proof using Hs HP Hp.
    intros Ha Hin. pose proof (am_staged _ _ _ _ _ _ _ _ _ _ Ha) as So. destruct (source_takes _ _ _ _ _ (so_source _ _ _ _ _ _ _ _ So)) as [Ho Hu].
    destruct (HP n0 Ho) as [_ _ H3 H4]. destruct Hu as (_ & _ & Eu & _ & Hl & _).
    apply elem_of_cons in Hin as [->|Hin].
    { cbn. apply H3. rewrite <- Eu. apply (so_snap _ _ _ _ _ _ _ _ So). }
    apply elem_of_list_fmap in Hin as (d & -> & Hd). cbn.
    destruct (forall2_in_r _ _ _ _ (so_deltas _ _ _ _ _ _ _ _ So) Hd) as (di & Hdi & D1 & _ & D3 & _).
    apply elem_of_list_filter in Hdi as [Hnew Hdi]. apply (H4 di); [by eapply Limited.newest_sub| |done].
    unfold delta_is_new in Hnew. rewrite (proj1 (not_reset _ _ _ _ _ Ha)) in Hnew. cbn in Hnew.
    pose proof (am_start _ _ _ _ _ _ _ _ _ _ Ha) as Hst. destruct (Hp _ Hst) as [_ (d0 & Hd0 & Hk)].
    destruct (head_highest _ _ (gs_sorted _ _ _ _ (start_good _ _ _ _ _ Hs _ Hst)) Hd0) as (hd & l' & E & Hle).
    rewrite E in Hnew. lia.
  Qed.
  Lemma damage_past st n0 n sg f1 v st' f2 cb st2 f3 v' : at_rsync c base name e f st n0 n sg f1 v st' f2 cb st2 f3 ->
    past s k (set_validator st2 v').
  Proof using Hs HP Hp.
    intros Ha. pose proof (ac_move _ _ _ _ _ _ _ _ _ _ _ _ _ (ar_clean _ _ _ _ _ _ _ _ _ _ _ _ _ _ _ _ Ha)) as Am.
    pose proof (am_staged _ _ _ _ _ _ _ _ _ _ Am) as So. destruct (source_takes _ _ _ _ _ (so_source _ _ _ _ _ _ _ _ So)) as [Ho Hu].
    destruct (not_reset _ _ _ _ _ Am) as [Er En]. split.
    { exists (sg_snap sg). cbn. rewrite (proj2 (new_deltas c base name e f _ _ _ _ _ _ _ _ _ _ _ Ha)). split; [done|].
      by rewrite (proj1 (so_snap _ _ _ _ _ _ _ _ So)). }
    destruct (sl_delta _ _ _ _ _ _ (HP n0 Ho)) as (di & Hdi & Ek). destruct (taken_last _ _ _ _ _ Hu Hdi) as (m & Hm & M1 & M2).
    pose proof (am_start _ _ _ _ _ _ _ _ _ _ Am) as Hst. destruct (Hp _ Hst) as [_ (d0 & Hd0 & Hk)].
    pose proof (gs_sorted _ _ _ _ (start_good _ _ _ _ _ Hs _ Hst)) as Hso.
    destruct (head_highest _ _ Hso Hd0) as (hd & l' & E & Hle).
    destruct (delta_is_new st (sg_reset sg) (di_serial m)) eqn:Enew.
    - assert (Hin : m ∈ filter (fun d => delta_is_new st (sg_reset sg) (di_serial d) = true) (n_deltas n)) by (by apply elem_of_list_filter).
      destruct (forall2_in_l _ _ _ _ (so_deltas _ _ _ _ _ _ _ _ So) Hin) as (d & Hd & D1 & _).
      exists d. split; [|lia]. change (d ∈ st_deltas st2). apply (new_delta_in c base name e f _ _ _ _ _ _ _ _ _ _ _ _ Ha). by right.
    - exists hd. split; [|lia]. change (hd ∈ st_deltas st2). apply (new_delta_in c base name e f _ _ _ _ _ _ _ _ _ _ _ _ Ha). left.
      unfold delta_is_new in Enew. rewrite Er, E in Enew. cbn in Enew.
      unfold kept. rewrite Er, (so_cutoff _ _ _ _ _ _ _ _ So).
      assert (Hin : hd ∈ st_deltas st) by (rewrite E; by left). rewrite <- (split_before_app (cutoff_of n)) in Hin.
      apply elem_of_app in Hin as [?|Hin]; [done|]. apply (proj2 (split_before_spec (cutoff_of n) _ Hso)) in Hin. lia.
  Qed.

  Lemma damage_instant h x g : g ∈ instants c e f -> published x c g (rel, h) -> published x c f (rel, h).
  Proof using All.
    intros Hg%(instant_phase c base name e f Hs).
    destruct (lost_quiet c base name e f p Hs (public_under c rel)) as (Q1 & Q2 & Q3 & Q4).
    destruct (good_rel_apart c name rel Hgr) as [HN Ht].
    assert (V : forall a b : fs, a !! p = b !! p -> published x c a (rel, h) -> published x c b (rel, h)).
    { intros a b E (t & m & H & Hh). exists t, m. split; [|done]. cbn [fst] in *. by rewrite <- E. }
    set (G g := published x c g (rel, h) -> published x c f (rel, h)). change (G g).
    assert (X0 : forall g, stage_tree c f g -> G g).
    { intros a Ha. refine (V _ _ _). apply (stage_same c f a p Ha); [by apply (apart_out _ _ Q1)|]. intros Hb.
      by apply (proj2 (apart_out _ _ Q1) (staging_dir c) (under_refl _)). }
    assert (X1 : forall st n0 n sg f1 g, at_move c base name e f st n0 n sg f1 -> inside (move_area c sg) f1 g -> G g).
    { intros st n0 n sg f1 a Ha HI HG. apply (X0 f1); [apply Ha|]. revert HG. refine (V _ _ _). apply (move_same c sg f1 a p); [done| |done].
      intros en Hin. by eapply damage_entry. }
    assert (X2 : forall st n0 n sg f1 v st' f2 cb g, at_clean c base name e f st n0 n sg f1 v st' f2 -> cleaning st' cb f2 g -> G g).
    { intros st n0 n sg f1 v st' f2 cb a Ha HI HG. apply (X1 st n0 n sg f1 f2); [apply Ha..|].
      destruct (clean_view _ _ _ _ p HI) as [E|[_ E]].
      - revert HG. refine (published_view _ _ _ _ _ _). by symmetry.
      - destruct HG as (t & m & H & _). apply view_file in H. cbn [fst] in H. congruence. }
    assert (X3 : forall st n0 n sg f1 v st' f2 cb st2 f3 g, at_rsync c base name e f st n0 n sg f1 v st' f2 cb st2 f3 ->
      inside (rsync_area c) f3 g -> G g).
    { intros st n0 n sg f1 v st' f2 cb st2 f3 a Ha HI HG. eapply X2; [apply Ha..|]. revert HG. refine (V _ _ _). by apply (rsync_same c f3 a p). }
    assert (X4 : forall st n0 n sg f1 v st' f2 cb st2 f3 f4 doc g, at_notify c base name e f st n0 n sg f1 v st' f2 cb st2 f3 f4 ->
      notifying c name doc f4 g -> G g).
    { intros st n0 n sg f1 v st' f2 cb st2 f3 f4 doc a Ha Hn HG. eapply X3; [apply Ha..|]. revert HG. refine (V _ _ _). by apply (notify_same c name doc f4 a p). }
    destruct Hg as [[H|st n0 n sg f1 H1 H2 _|st n0 n sg f1 v st' f2 cb H1 H2 H3|st n0 n sg f1 v st' f2 cb st2 f3 H1 H2]
      |st n0 n sg f1 v st' f2 cb st2 f3 f4 n' H1 H2 H3|st n0 n sg f1 v st' f2 cb st2 f3 f4 n' f5 H1 H2].
    - by apply X0.
    - by eapply X1.
    - by eapply X2.
    - by eapply X3.
    - by eapply X4.
    - intros HG. eapply X4; [apply H1..|]. revert HG. refine (V _ _ _). by apply (save_same c (state_text st2) f5 g p).
  Qed.
  Lemma damage_next g st : g ∈ instants c e f -> starts_from c base name g st -> past s k st.
  Proof using Hs HP Hp.
    intros Hg%(instant_phase c base name e f Hs) Hst.
    destruct (phase_state c base name e f Hs g st Hg Hst) as [H|(st0 & n0 & n & sg & f1 & v & st' & f2 & cb & st2 & f3 & f4 & n' & f5 & v' & Ha & _ & ->)];
      [by apply Hp|].
    eapply damage_past. apply (an_rsync _ _ _ _ _ _ _ _ _ _ _ _ _ _ _ _ _ (as_notify _ _ _ _ _ _ _ _ _ _ _ _ _ _ _ _ _ _ _ Ha)).
  Qed.
End stays.

(** ** Theorems *)
Lemma damage_runs c base name s k rel h x f g :
  cfg_ok c base name -> own_tree c base name f -> good_rel name rel -> (forall st, starts_from c base name f st -> past s k st) ->
  runs_from (still_lists c base s k rel) c base name f g ->
  own_tree c base name g /\ (forall st, starts_from c base name g st -> past s k st) /\
  (published x c g (rel, h) -> published x c f (rel, h)).
Proof.
  intros Hc Hown Hgr Hp Hr. induction Hr as [|g c2 e g2 Hr (IH1 & IH2 & IH3) Hsp [Hw1 Hw2] HP Hg|g g2 Hr (IH1 & IH2 & IH3) Hwf Ho].
  - done.
  - assert (Hs : sane c2 base name e g) by (split; [by eapply places_cfg|by eapply own_to|done|done]).
    assert (Ep : forall r, public_path c2 r = public_path c r) by (intros; apply (places_public c c2 Hsp)).
    assert (HP2 : forall n, offers c2 e g n -> still_lists c2 base s k rel n).
    { intros n [H1 H2 H3 H4]%HP. split; [done|done| |].
      - intros r Hu. rewrite !Ep. by apply H3.
      - intros di r Hd Hk Hu. rewrite !Ep. by eapply H4. }
    assert (Hp2 : forall st, starts_from c2 base name g st -> past s k st).
    { intros st Hst. apply IH2. by apply (places_starts c c2 base name Hsp). }
    split; [|split].
    + apply (own_back c c2 base name Hsp). apply (phase_own c2 base name e g Hs). by apply instant_phase.
    + intros st Hst. apply (damage_next c2 base name e g s k rel Hs HP2 Hp2 g2); [done|]. by apply (places_starts c c2 base name Hsp).
    + intros H. apply IH3. apply (places_published c c2 Hsp). apply (damage_instant c2 base name e g s k rel Hs Hgr HP2 Hp2 h x g2 Hg).
      by apply (places_published c c2 Hsp).
  - split; [eapply own_else; [exact IH1|done|]; apply Ho, owned_sp|]. split.
    + intros st Hst. apply IH2. eapply starts_plain; [|apply IH1|exact Hst]. apply Ho, owned_sp.
    + intros (b & m & H & Hh). apply IH3. exists b, m. split; [|done]. rewrite <- Ho; [done|]. right. left. apply public_under.
Qed.

(** A recorded delta whose file is missing, or has other content, is never
    downloaded again: at no instant of any later run is the right file there, as
    long as the source stays with the session and lists a delta with that serial. *)
Theorem C86_stays c base name x f0 f st s d g :
  cfg_ok c base name -> damaged c base name f0 f -> starts_from c base name f st -> st_snap st = Some s -> d ∈ st_deltas st ->
  ~ published x c f (ds_rel d, ds_hash d) ->
  runs_from (still_lists c base (ss_session s) (ds_serial d) (ds_rel d)) c base name f g ->
  ~ published x c g (ds_rel d, ds_hash d).
Proof.
  intros Hc [D1 D2 D3] Hst Hsn Hd Hno Hr Hpub. apply Hno.
  assert (Hown : own_tree c base name f) by (eapply own_else; [by eapply mirror_own|done|done]).
  assert (Hg : good_state c base name st) by (destruct Hst as [[_ H]|[_ ->]]; [by apply Hown|apply good_first]).
  eapply (damage_runs c base name (ss_session s) (ds_serial d)); [done|done|by apply (gs_deltas _ _ _ _ Hg)| |exact Hr|done].
  intros st1 Hst1. rewrite (starts_unique _ _ _ _ _ _ Hst1 Hst). split; [by exists s|]. exists d. split; [done|lia].
Qed.

(** ... and yet every run that completes and changes anything publishes a
    notification that lists it, as long as the source still does and its deltas
    are not limited to newer ones. *)
Theorem C86_listed c base name x e f0 f st s d w :
  cfg_ok c base name -> damaged c base name f0 f -> good_world c base name e f ->
  starts_from c base name f st -> st_snap st = Some s -> d ∈ st_deltas st -> ~ published x c f (ds_rel d, ds_hash d) ->
  (forall n, offers c e f n -> still_lists c base (ss_session s) (ds_serial d) (ds_rel d) n) ->
  (forall n0 n, takes c e f n0 n -> exists di, di ∈ n_deltas n /\ di_serial di = ds_serial d) ->
  run c e f = (Ok tt, w) ->
  w_fs w = f \/
  exists n', w_fs w !! notif_path c name = Some (File (x_write_notif (e_ext e) n') None) /\
    mkDI (ds_serial d) (base +:+ ds_rel d) (ds_hash d) ∈ n_deltas n' /\
    ~ published x c (w_fs w) (ds_rel d, ds_hash d).
Proof.
  intros Hc Hdam [Hw1 Hw2] Hst Hsn Hd Hno HP Ht Hrun. pose proof Hdam as [D1 D2 D3].
  assert (Hown : own_tree c base name f) by (eapply own_else; [by eapply mirror_own|done|done]).
  assert (Hs : sane c base name e f) by (split; done).
  assert (Hg : good_state c base name st) by (by apply (start_good c base name e f Hs)).
  assert (Hend : ~ published x c (w_fs w) (ds_rel d, ds_hash d)).
  { apply (C86_stays c base name x f0 f st s d); try done.
    apply (rf_run _ _ _ _ _ f c e); [apply rf_start|apply same_places_refl|by split|done|].
    pose proof (after_instant c e f) as Hi. rewrite Hrun in Hi. exact Hi. }
  destruct (ok_run c base name e f Hs w Hrun)
    as [[? _]|(st0 & n0 & n & sg & f1 & v & st' & f2 & cb & st2 & f3 & f4 & n' & f5 & Ha & Hsv & _ & HN & _)]; [by left|right].
  exists n'. split; [done|]. split; [|done].
  pose proof (an_rsync _ _ _ _ _ _ _ _ _ _ _ _ _ _ _ _ _ (as_notify _ _ _ _ _ _ _ _ _ _ _ _ _ _ _ _ _ _ _ Ha)) as Ar.
  pose proof (ac_move _ _ _ _ _ _ _ _ _ _ _ _ _ (ar_clean _ _ _ _ _ _ _ _ _ _ _ _ _ _ _ _ Ar)) as Am.
  pose proof (starts_unique _ _ _ _ _ _ (am_start _ _ _ _ _ _ _ _ _ _ Am) Hst) as ->.
  pose proof (am_staged _ _ _ _ _ _ _ _ _ _ Am) as So. pose proof (source_takes _ _ _ _ _ (so_source _ _ _ _ _ _ _ _ So)) as Htk.
  assert (Hp : forall st1, starts_from c base name f st1 -> past (ss_session s) (ds_serial d) st1).
  { intros st1 Hst1. rewrite (starts_unique _ _ _ _ _ _ Hst1 Hst). split; [by exists s|]. exists d. split; [done|lia]. }
  destruct (not_reset c base name e f (ss_session s) (ds_serial d) (ds_rel d) HP Hp _ _ _ _ _ Am) as [Er _].
  assert (Hin : d ∈ st_deltas st2).
  { apply (new_delta_in c base name e f _ _ _ _ _ _ _ _ _ _ _ _ Ar). left. unfold kept. rewrite Er, (so_cutoff _ _ _ _ _ _ _ _ So).
    pose proof Hd as Hd2. rewrite <- (split_before_app (cutoff_of n)) in Hd2. apply elem_of_app in Hd2 as [?|Hd2]; [done|].
    apply (proj2 (split_before_spec (cutoff_of n) _ (gs_sorted _ _ _ _ Hg))) in Hd2.
    destruct (Ht _ _ Htk) as (di & Hdi & Ek). destruct Htk as [_ (_ & _ & _ & _ & (older & _ & Hso & _) & _)].
    unfold cutoff_of in Hd2. destruct (n_deltas n) as [|a l]; [by apply elem_of_nil in Hdi|].
    assert (Hal : StronglySorted (fun a b => (di_serial a <= di_serial b)%N) (a :: l)).
    { clear -Hso. induction older as [|o older IH]; [done|]. apply IH. by inversion Hso. }
    inversion Hal as [|? ? _ Hfa]; subst. apply elem_of_cons in Hdi as [->|Hdi]; [lia|]. rewrite Forall_forall in Hfa. specialize (Hfa _ Hdi). lia. }
  destruct (as_notif _ _ _ _ _ _ _ _ _ _ _ _ _ _ _ _ _ _ _ Ha) as (s2 & _ & ->). cbn. apply elem_of_list_fmap. by exists d.
Qed.

(** What is new in the version is there with its hash, whatever the damage: the
    notification, its snapshot, and the deltas that are newer than all recorded ones
    (unless the place of one is due for removal). *)
Theorem C86_new c base name e f0 f w :
  cfg_ok c base name -> damaged c base name f0 f -> good_world c base name e f -> honest_run c e f ->
  run c e f = (Ok tt, w) ->
  w_fs w = f \/
  exists st n0 n n', starts_from c base name f st /\ takes c e f n0 n /\
    w_fs w !! notif_path c name = Some (File (x_write_notif (e_ext e) n') None) /\
    n_session n' = n_session n /\ n_serial n' = n_serial n /\ n_snap_uri n' = n_snap_uri n /\ n_snap_hash n' = n_snap_hash n /\
    forall u h, (u, h) = (n_snap_uri n, n_snap_hash n) \/
        (exists di, di ∈ n_deltas n /\ (u, h) = (di_uri di, di_hash di) /\ forall d, d ∈ st_deltas st -> (ds_serial d < di_serial di)%N) ->
      exists rel, u = base +:+ rel /\
        ((forall t k, recorded_at c base name e f (public_path c rel) t -> (wrap64 (e_clock e k - c_cleanup_after c) < t)%Z) ->
         published (e_ext e) c (w_fs w) (rel, h)).
Proof.
  intros Hc [D1 D2 D3] [Hw1 Hw2] Hh Hrun.
  assert (Hown : own_tree c base name f) by (eapply own_else; [by eapply mirror_own|done|done]).
  assert (Hs : sane c base name e f) by (split; done).
  destruct (ok_run c base name e f Hs w Hrun)
    as [[? _]|(st & n0 & n & sg & f1 & v & st' & f2 & cb & st2 & f3 & f4 & n' & f5 & Ha & Hsv & _ & HN & _)]; [by left|right].
  pose proof (as_notify _ _ _ _ _ _ _ _ _ _ _ _ _ _ _ _ _ _ _ Ha) as An. pose proof (an_rsync _ _ _ _ _ _ _ _ _ _ _ _ _ _ _ _ _ An) as Ar.
  pose proof (ac_move _ _ _ _ _ _ _ _ _ _ _ _ _ (ar_clean _ _ _ _ _ _ _ _ _ _ _ _ _ _ _ _ Ar)) as Am.
  pose proof (am_staged _ _ _ _ _ _ _ _ _ _ Am) as So. destruct (so_snap _ _ _ _ _ _ _ _ So) as (S1 & S2 & S3 & S4 & _).
  destruct (as_notif _ _ _ _ _ _ _ _ _ _ _ _ _ _ _ _ _ _ _ Ha) as (s & Es & ->).
  destruct (new_deltas c base name e f _ _ _ _ _ _ _ _ _ _ _ Ar) as [_ Es2]. rewrite Es in Es2. injection Es2 as ->.
  exists st, n0, n. eexists. split; [apply Am|]. split; [by apply source_takes, So|]. split; [exact HN|]. cbn. rewrite S1, S2, S3, S4.
  do 4 (split; [done|]). intros u h Huh.
  assert (Hen : exists rel, u = base +:+ rel /\ (rel, h) ∈ staged_entries sg).
  { destruct Huh as [[= -> ->]|(di & Hdi & [= -> ->] & Hnew)].
    - exists (ss_rel (sg_snap sg)). split; [done|]. rewrite <- S3. left.
    - assert (Hin : di ∈ filter (fun d => delta_is_new st (sg_reset sg) (di_serial d) = true) (n_deltas n)).
      { apply elem_of_list_filter. split; [|done]. unfold delta_is_new. destruct (sg_reset sg); [done|]. cbn.
        destruct (st_deltas st) as [|d l]; [done|]. apply N.ltb_lt, Hnew. left. }
      destruct (forall2_in_l _ _ _ _ (so_deltas _ _ _ _ _ _ _ _ So) Hin) as (d & Hd & _ & E2 & E3 & _).
      exists (ds_rel d). split; [done|]. rewrite <- E2. right. apply elem_of_list_fmap. by exists d. }
  destruct Hen as (rel & -> & Hen). exists rel. split; [done|]. intros Hno.
  destruct (entry_ref c base name e f Hs _ _ _ _ _ _ Am Hen) as (_ & Hgr & _). destruct (good_rel_apart c name rel Hgr) as [G1 G2].
  eapply published_view.
  { apply (final_view c base name e f Hs _ _ _ _ _ _ _ _ _ _ _ _ _ _ _ _ (public_under c rel) (apart_neq _ _ G1) (apart_neq _ _ G2) Ha Hsv). }
  eapply published_view; [|apply (arrives c base name e f Hs Hh _ _ _ _ _ _ _ _ _ _ _ _ (rel, h) An Hen)].
  - symmetry. apply (rsync_view c base name e f Hs); [apply public_under|apply An].
  - intros cb' t [k ->] Hr. by apply Hno.
Qed.

(** ** Examples *)
(** serial 3 is served, and the file of its delta is then removed *)
Definition holed_file : path := public_path demo_config (delta_rel uuid_A 3).
Definition holed : fs := delete holed_file (tree3 1).
Definition recorded_at_3 (f : fs) : option rrdp_state :=
  match op_read f (rrdp_state_path demo_config) with Some b => state_parse b | None => None end.
Definition lists_b (f : fs) (rel : string) (k : N) : bool :=
  match recorded_at_3 f with
  | Some st => match st_snap st, st_deltas st with
      | Some s, d :: _ => bool_decide (ss_session s = uuid_A) && bool_decide (ds_serial d = k) && bool_decide (ds_rel d = rel) &&
          match st_deprecated st with [] => true | _ => false end
      | _, _ => false
      end
  | None => false
  end.
Definition holed_b (f h : fs) (r0 r : res unit * world) : bool :=
  is_file (f !! holed_file) && fs_exists h (rrdp_state_path demo_config) && lists_b h (delta_rel uuid_A 3) 3 &&
  at_b h holed_file None && ok_b r0 && ok_b r && served_b (w_fs r.2) (served_at 2) && served_b h (served_at 1).
Lemma holed_checked : holed_b (tree3 1) holed (run demo_config (env3 0) holed) (run demo_config (env3 1) holed) = true.
Proof. vme. Qed.
Lemma holed_facts f h r0 r : holed_b f h r0 r = true ->
  (exists b m, f !! holed_file = Some (File b m)) /\
  (exists st s d, starts_from demo_config base name h st /\ st_snap st = Some s /\ d ∈ st_deltas st /\
    ss_session s = uuid_A /\ ds_serial d = 3%N /\ ds_rel d = delta_rel uuid_A 3 /\ st_deprecated st = []) /\
  h !! holed_file = None /\ (exists w, r0 = (Ok tt, w)) /\
  served_b h (served_at 1) = true /\ exists w, r = (Ok tt, w) /\ served_b (w_fs w) (served_at 2) = true.
Proof.
  unfold holed_b. intros [[[[[[[H1 H2]%andb_true_iff H3]%andb_true_iff H4%at_ok]%andb_true_iff H5]%andb_true_iff H6]%andb_true_iff H7]%andb_true_iff H8]%andb_true_iff.
  split; [destruct (f !! holed_file) as [[b m| |]|]; try discriminate H1; by exists b, m|]. split.
  { unfold lists_b, recorded_at_3 in H3. destruct (op_read h (rrdp_state_path demo_config)) as [b|] eqn:E; [|discriminate H3].
    destruct (state_parse b) as [st|] eqn:Ep; [|discriminate H3]. destruct (st_snap st) as [s|] eqn:Es; [|discriminate H3].
    destruct (st_deltas st) as [|d l] eqn:Ed; [discriminate H3|].
    apply andb_true_iff in H3 as [[[K1%bool_decide_eq_true K2%bool_decide_eq_true]%andb_true_iff K3%bool_decide_eq_true]%andb_true_iff K4].
    assert (K5 : st_deprecated st = []) by (destruct (st_deprecated st); [reflexivity|discriminate K4]).
    exists st, s, d. split; [left; split; [exact H2|]; exists b; exact (conj E Ep)|]. split; [exact Es|]. split; [rewrite Ed; left|].
    exact (conj K1 (conj K2 (conj K3 K5))). }
  split; [exact H4|]. apply ok_b_ok in H5 as (w5 & H5 & _). split; [exact (ex_intro _ w5 H5)|]. split; [exact H8|].
  destruct r as [[[]|?|] w]; [|discriminate H6..]. exists w. exact (conj eq_refl H7).
Qed.
Definition others_check (n : notification) (k : N) (p : path) : bool :=
  forallb (fun u => match strip_prefix base u with Some r => bool_decide (apart p (public_path demo_config r)) | None => true end)
    (n_snap_uri n :: (di_uri <$> filter (fun d => di_serial d <> k) (n_deltas n))).
Lemma others_ok n k rel : others_check n k (public_path demo_config rel) = true -> (exists di, di ∈ n_deltas n /\ di_serial di = k) ->
  still_lists demo_config base (n_session n) k rel n.
Proof.
  intros H Hd. unfold others_check in H. rewrite forallb_forall in H. split; [done|done| |].
  - intros r Hu. specialize (H (n_snap_uri n)). rewrite Hu, strip_prefix_app in H. apply bool_decide_eq_true in H; [done|by left].
  - intros di r Hin Hk Hu. specialize (H (di_uri di)). rewrite Hu, strip_prefix_app in H. apply bool_decide_eq_true in H; [done|].
    apply elem_of_list_In. right. apply elem_of_list_fmap. exists di. split; [done|]. by apply elem_of_list_filter.
Qed.
Definition delta3 : delta_info := mkDI 3 (base +:+ delta_rel uuid_A 3) (demo_hash (delta_doc uuid_A 3)).
Lemma src3_delta : delta3 ∈ n_deltas (src3 1).
Proof. right. right. left. Qed.
Lemma src3_still : still_lists demo_config base uuid_A 3 (delta_rel uuid_A 3) (src3 1).
Proof. apply (others_ok (src3 1)); [vm_compute; reflexivity|]. exists delta3. split; [exact src3_delta|done]. Qed.
Lemma src3_takes f n0 n : takes demo_config (env3 1) f n0 n -> exists di, di ∈ n_deltas n /\ di_serial di = 3%N.
Proof.
  intros [->%env3_offers Hu]; [|lia]. destruct Hu as (_ & _ & _ & _ & (older & Hp & _ & Hl) & _).
  destruct older; [|by cbn in Hl]. cbn in Hp. exists delta3. split; [|done]. rewrite Hp. apply src3_delta.
Qed.
Opaque run.
Lemma holed_damaged b m : tree3 1 !! holed_file = Some (File b m) -> damaged demo_config base name (tree3 1) holed.
Proof.
  intros E. split; [apply mirror3; lia| |].
  - eapply wf_forget; [|exact E]. apply (mirror_own any_notif demo_config base name _ demo_cfg_ok (mirror3 1 ltac:(lia))).
  - apply lookup_delete_ne. apply (bool_decide_eq_true_1 _). vm_compute. reflexivity.
Qed.
Lemma unpublished x c f rel h : f !! public_path c rel = None -> ~ published x c f (rel, h).
Proof. intros E (b & m & H & _). cbn in H. congruence. Qed.
Lemma holed_honest : honest_run demo_config (env3 1) holed.
Proof.
  destruct (serve_honest 1 (le_S _ _ (le_n 1))) as (H1 & H2 & H3). split; [exact H1|]. split.
  - intros p t Hp Hx. unfold holed in Hx. apply lookup_delete_Some in Hx as [_ Hx]. exact (H2 p t Hp Hx).
  - intros n Hn. rewrite (env3_offers 1 holed n (le_S _ _ (le_n 1)) Hn). intros u h h' E1%listing_ref E3%listing_ref.
    destruct E1 as (a & Ha & <- & <-), E3 as (b & Hb & E & <-). by rewrite (sb_unique _ _ _ src3_stable 1 1 a b).
Qed.
Lemma holed_kept st p t k : starts_from demo_config base name holed st -> st_deprecated st = [] ->
  recorded_at demo_config base name (env3 1) holed p t -> (wrap64 (e_clock (env3 1) k - c_cleanup_after demo_config) < t)%Z.
Proof.
  intros Hst Hd (st' & T1 & T2). rewrite (starts_unique _ _ _ _ _ _ T1 Hst) in T2. destruct T2 as [(d & Hin & _)|[[k' ->] _]].
  - rewrite Hd in Hin. exact (False_ind _ (proj1 (elem_of_nil _) Hin)).
  - clear. vm_compute. reflexivity.
Qed.
(** The file is missing; a run with the same version completes; serial 5 is served
    with a notification that lists the missing delta. *)
Example C86_applies : exists st s d w,
  damaged demo_config base name (tree3 1) holed /\ good_world demo_config base name (env3 1) holed /\
  honest_run demo_config (env3 1) holed /\
  (forall p t k, recorded_at demo_config base name (env3 1) holed p t ->
     (wrap64 (e_clock (env3 1) k - c_cleanup_after demo_config) < t)%Z) /\
  starts_from demo_config base name holed st /\ st_snap st = Some s /\ d ∈ st_deltas st /\
  ~ published safe_ext demo_config holed (ds_rel d, ds_hash d) /\
  (forall n, offers demo_config (env3 1) holed n -> still_lists demo_config base (ss_session s) (ds_serial d) (ds_rel d) n) /\
  (forall n0 n, takes demo_config (env3 1) holed n0 n -> exists di, di ∈ n_deltas n /\ di_serial di = ds_serial d) /\
  runs_from (still_lists demo_config base (ss_session s) (ds_serial d) (ds_rel d)) demo_config base name holed
    (after (run demo_config (env3 1) holed)) /\
  (exists w0, run demo_config (env3 0) holed = (Ok tt, w0)) /\
  served_b holed (Some (3, [3; 2]))%N = true /\
  run demo_config (env3 1) holed = (Ok tt, w) /\ served_b (w_fs w) (Some (5, [5; 4; 3]))%N = true.
Proof.
  destruct (holed_facts _ _ _ _ holed_checked) as ((b & m & H1) & (st & s & d & K1 & K2 & K3 & K4 & K5 & K6 & K7) & H3 & H4 & H5 & w & H6 & H7).
  exists st, s, d, w. rewrite K4, K5, K6.
  assert (HP : forall n, offers demo_config (env3 1) holed n -> still_lists demo_config base uuid_A 3 (delta_rel uuid_A 3) n).
  { intros n Hn. rewrite (env3_offers 1 holed n (le_S _ _ (le_n 1)) Hn). exact src3_still. }
  pose proof (env3_good 1 holed (le_S _ _ (le_n 1))) as Hw.
  split; [exact (holed_damaged b m H1)|]. split; [exact Hw|]. split; [exact holed_honest|].
  split; [exact (fun p t k => holed_kept st p t k K1 K7)|]. split; [exact K1|]. split; [exact K2|]. split; [exact K3|].
  split; [exact (unpublished safe_ext demo_config holed _ _ H3)|]. split; [exact HP|]. split; [exact (src3_takes holed)|].
  split; [exact (rf_run _ _ _ _ _ holed demo_config (env3 1) _ (rf_start _ _ _ _ _) (same_places_refl _) Hw HP (after_instant _ _ _))|].
  exact (conj H4 (conj H5 (conj H6 H7))).
Qed.
Transparent run.
Print Assumptions C86_stays.
Print Assumptions C86_listed.
Print Assumptions C86_new.
