(** * What every instant of a run looks like *)
From Coq Require Import ZifyN ZifyNat ZifyBool.
From Verif Require Export RunPhases RsyncProofs.
From Verif Require Import FsWf.

(** ** Cleaning *)
Definition expired (st : rrdp_state) (cb : Z) (p : path) : Prop :=
  exists d, d ∈ st_deprecated st /\ (dp_since d <= cb)%Z /\ p = dp_path d.
Record cleaning (st : rrdp_state) (cb : Z) (f g : fs) : Prop := {
  cl_wf : wf g;
  cl_sub : g ⊆ f;
  cl_mods : mods (expired st cb) (fun q => exists p, expired st cb p /\ below q p) f g }.

Lemma w_cleaning e c st w (Q : res rrdp_state -> world -> Prop) :
  wf (w_fs w) -> (forall d, d ∈ st_deprecated st -> dp_path d <> []) ->
  let cb := wrap64 (e_clock e (w_n w) - c_cleanup_after c) in
  (forall x w', cleaning st cb (w_fs w) (w_fs w') -> Q (Err x) w') ->
  (forall w' st', cleaned cb st st' -> cleaning st cb (w_fs w) (w_fs w') ->
     (forall d, d ∈ st_deprecated st -> (dp_since d <= cb)%Z -> fs_exists (w_fs w') (dp_path d) = false) ->
     Q (Ok st') w') ->
  wpt e (on_fs (cleaning st cb (w_fs w))) (clean st c) w Q.
Proof.
  intros Hwf Hne cb HE HQ.
  apply (w_clean e c (cleaning st cb (w_fs w)) (fun q => exists p, expired st cb p /\ q `prefix_of` p)
           (fun g H => cl_wf _ _ _ _ H)).
  - split; [done|done|apply mods_refl].
  - intros f q [C1 C2 C3] (p & Hp & Hq) Hq0 Hd Hch. split.
    + by apply (wf_rmd (fun _ => True)).
    + etrans; [apply delete_subseteq|done].
    + apply mods_rmdir; [|done|done]. destruct (decide (q = p)) as [->|Hqp]; [by right|]. left. by exists p.
  - intros d Hd Hs. assert (Hx : expired st cb (dp_path d)) by (by exists d).
    split; [by apply Hne|]. split.
    + intros f nd [C1 C2 C3] H1 H2 H3. split.
      * by apply (wf_rmf (dp_path d) _ nd).
      * etrans; [apply delete_subseteq|done].
      * by apply mods_delete.
    + intros q Hq _. by exists (dp_path d).
  - done.
  - done.
Qed.

(** ** The notification *)
(** the notification krill-sync publishes for this state *)
Definition notif_of (base : string) (st : rrdp_state) (n : notification) : Prop :=
  exists s, st_snap st = Some s /\
    n = mkNotif (ss_session s) (ss_serial s) (base +:+ ss_rel s) (ss_hash s)
          ((fun d => mkDI (ds_serial d) (base +:+ ds_rel d) (ds_hash d)) <$> st_deltas st).

Lemma w_delta_infos e (J : event -> Prop) m l : ends_with "/" (mp_base m) = true ->
  forall w (Q : res (list delta_info) -> world -> Prop),
  (forall x w', w_fs w' = w_fs w -> Q (Err x) w') ->
  (forall w', w_fs w' = w_fs w ->
     Q (Ok ((fun d => mkDI (ds_serial d) (mp_base m +:+ ds_rel d) (ds_hash d)) <$> l)) w') ->
  wpt e J (delta_infos m l) w Q.
Proof.
  intros Hb. induction l as [|d l IH]; intros w Q HE HQ; cbn [delta_infos]; [wp1; by apply HQ|].
  wp1. unfold mp_uri. wp1. wp1. rewrite https_join_base by done. wp1; [|by apply HE].
  destruct (x_https_ok _ _); [|done]. injection H as <-. wp1. apply IH; [done|].
  intros w' E'. wp1. by apply HQ.
Qed.
Lemma w_make_notification e (J : event -> Prop) base st w (Q : res notification -> world -> Prop) :
  mp_base (st_map st) = base -> ends_with "/" base = true ->
  (forall x w', w_fs w' = w_fs w -> Q (Err x) w') ->
  (forall w' n, w_fs w' = w_fs w -> notif_of base st n -> Q (Ok n) w') ->
  wpt e J (make_notification_file st) w Q.
Proof.
  intros Hm Hb HE HQ. unfold make_notification_file. wp1. wp1; [|by apply HE]. rename a into s.
  wp1. unfold mp_uri. wp1. wp1. rewrite Hm, https_join_base by done. wp1; [|by apply HE].
  destruct (x_https_ok _ _); [|done]. injection H0 as <-. wp1. apply w_delta_infos; [by rewrite Hm|done|].
  intros w' E'. wp1. apply HQ; [done|]. exists s. rewrite Hm. done.
Qed.

Record notifying (c : config) (name doc : string) (f g : fs) : Prop := {
  no_wf : wf g;
  no_mods : mods (fun q => q = notif_tmp c name \/ q = notif_path c name)
                 (fun q => below q (notif_tmp c name)) f g;
  no_notif : g !! notif_path c name = f !! notif_path c name \/
             g !! notif_path c name = Some (File doc None) }.

Section notify.
  Context (c : config) (base name : string) (Hc : cfg_ok c base name) (e : env).
  Notation N := (notif_path c name).
  Notation tmp := (notif_tmp c name).

  Lemma notif_ne : N <> [] /\ tmp <> [] /\ N <> tmp.
  Proof using. unfold notif_path, notif_tmp. repeat split.
    - by destruct (c_rrdp_dir c).
    - by destruct (c_rrdp_dir c).
    - intros E. apply app_inv_head in E. injection E as E. symmetry in E. by apply (name_tmp_ne name).
  Qed.
  Lemma notif_not_above q : below q tmp -> q <> N /\ q <> tmp.
  Proof using.
    intros Hq. split; intros ->.
    - apply below_under in Hq. by destruct (notif_tmp_apart c name) as [H _].
    - by apply below_irrefl in Hq.
  Qed.

  Lemma w_notify st w (Q : res unit -> world -> Prop) :
    good_state c base name st -> wf (w_fs w) ->
    (forall x w', (w_fs w' = w_fs w \/ exists n, notif_of base st n /\
                      notifying c name (x_write_notif (e_ext e) n) (w_fs w) (w_fs w')) -> Q (Err x) w') ->
    (forall w' n, notif_of base st n -> notifying c name (x_write_notif (e_ext e) n) (w_fs w) (w_fs w') ->
       w_fs w' !! N = Some (File (x_write_notif (e_ext e) n) None) -> Q (Ok tt) w') ->
    wpt e (on_fs (fun g => g = w_fs w \/ exists n, notif_of base st n /\
             notifying c name (x_write_notif (e_ext e) n) (w_fs w) g))
      (write_notification st (c_notify_delay c)) w Q.
  Proof using Hc.
    intros Hg Hwf HE HQ. unfold write_notification.
    destruct notif_ne as (HN & Ht & HNt).
    wp1. set (J := on_fs _).
    assert (Hsl : wpt e J (when_ (0 <? c_notify_delay c)%N (sleep (c_notify_delay c))) w
              (fun r w' => r = Ok tt /\ w_fs w' = w_fs w)).
    { wp1; [|done]. wp1; done. }
    eapply wpt_post; [exact Hsl|]. intros r w1 [-> E1]. cbv zeta.
    rewrite (gs_map _ _ _ _ Hg), (gs_source _ _ _ _ Hg). unfold mp_path, tmp_name. cbn [mp_dir ns_name].
    rewrite (path_join_name _ name) by apply (ck_name _ _ _ Hc).
    rewrite (path_join_name _ (name +:+ ".tmp")) by (by eapply ends_with_tmp_noslash).
    fold (notif_path c name) (notif_tmp c name).
    wp1. eapply (w_make_notification _ _ base).
    { by rewrite (gs_map _ _ _ _ Hg). }
    { eapply https_parent_ends, (ck_parent _ _ _ Hc). }
    { intros x w' E'. apply HE. left. by rewrite E', E1. }
    intros w2 n E2 Hn. wp1. wp1. wp1. rewrite E1 in E2.
    set (doc := x_write_notif (e_ext e) n).
    set (I := notifying c name doc (w_fs w)).
    assert (HIJ : forall ev, on_fs I ev -> J ev).
    { intros []; cbn; auto. intros HI. right. by exists n. }
    assert (HI0 : I (w_fs w2)).
    { rewrite E2. split; [done|apply mods_refl|by left]. }
    set (I1 := fun g => I g /\ g !! N = w_fs w !! N).
    eapply wpt_conseq; [eapply (w_write_buf e I1 (fun q => below q tmp) tmp doc w2
       (fun r w' => I1 (w_fs w') /\ r <> Panic /\ (r = Ok tt -> w_fs w' !! tmp = Some (File doc None))))| |].
    - split; [done|by rewrite E2].
    - intros g q [[I1' I2 I3] I4] Hq Hq0 Hnn Hpd. destruct (notif_not_above q Hq) as [H1 H2]. split; [split|].
      + by apply (wf_mk (fun _ => True)).
      + apply mods_mkdir; auto.
      + by rewrite lookup_insert_ne.
      + by rewrite lookup_insert_ne.
    - intros q Hq _. done.
    - intros g b' [[I1' I2 I3] I4] Hb Hne Hst Hpd. split; [split|].
      + by eapply (wf_wr tmp).
      + apply mods_insert; auto.
      + by rewrite lookup_insert_ne.
      + by rewrite lookup_insert_ne.
    - intros x w' H. split; [done|]. split; done.
    - intros w' H H'. split; [done|]. split; done.
    - intros ev H. apply HIJ. destruct ev; try done. by destruct H.
    - intros [[]|x|] w3 ((HI3 & HN3) & HP & Htmp); [| |done].
      2: { apply HE. right. by exists n. }
      specialize (Htmp eq_refl).
      set (I2 := fun g => I g /\ forall b m, g !! tmp = Some (File b m) -> b = doc /\ m = None).
      eapply wpt_conseq; [eapply (w_rename_file e I2 tmp N doc None w3
         (fun r w' => I (w_fs w') /\ r <> Panic /\ (r = Ok tt -> w_fs w' !! N = Some (File doc None))))| |].
      + split; [done|]. intros b m E. rewrite Htmp in E. by injection E as <- <-.
      + intros g b m [[J1 J2 J3] J4] Ho Ht' E Ed Hpd. destruct (J4 _ _ E) as [-> ->]. split; [split|].
        * by apply (wf_mv tmp N).
        * apply mods_insert; [by right|]. apply mods_delete; [by left|done].
        * right. by rewrite lookup_insert.
        * intros b m. rewrite lookup_insert_ne by done. by rewrite lookup_delete.
      + done.
      + done.
      + intros x w' Ew _. rewrite Ew. done.
      + intros w' [HI' _] Ew. split; [done|]. split; [done|]. intros _. by rewrite Ew, lookup_insert.
      + intros ev H. apply HIJ. destruct ev; try done. by destruct H.
      + intros [[]|x|] w4 (HI4 & HP4 & HN4); [| |done].
        * apply (HQ _ n); auto.
        * apply HE. right. by exists n.
  Qed.
End notify.

(** ** Saving the state *)
Record saving (c : config) (txt : string) (f g : fs) : Prop := {
  sv_wf : wf g;
  sv_mods : mods (eq (rrdp_state_path c)) (fun q => below q (rrdp_state_path c)) f g;
  sv_file : g !! rrdp_state_path c = f !! rrdp_state_path c \/
            exists b, g !! rrdp_state_path c = Some (File b None) /\ str_pre b txt }.

Lemma w_saving c e st w (Q : res unit -> world -> Prop) :
  wf (w_fs w) ->
  (forall x w', saving c (state_text st) (w_fs w) (w_fs w') -> Q (Err x) w') ->
  (forall w', saving c (state_text st) (w_fs w) (w_fs w') ->
     w_fs w' !! rrdp_state_path c = Some (File (state_text st) None) -> Q (Ok tt) w') ->
  wpt e (on_fs (saving c (state_text st) (w_fs w))) (persist st (rrdp_state_path c)) w Q.
Proof.
  intros Hwf HE HQ. unfold persist. set (sp := rrdp_state_path c) in *.
  apply (w_write_buf e _ (fun q => below q sp)).
  - split; [done|apply mods_refl|by left].
  - intros g q [S1 S2 S3] Hq Hne Hn Hp. split.
    + by apply (wf_mk (fun _ => True)).
    + apply mods_mkdir; auto.
    + assert (Hqs : q <> sp) by (intros ->; by apply below_irrefl in Hq). fold sp. by rewrite lookup_insert_ne.
  - done.
  - intros g b' [S1 S2 S3] Hb Hne Hst Hp. split.
    + by eapply (wf_wr sp).
    + by apply mods_insert.
    + right. exists b'. split; [apply lookup_insert|done].
  - done.
  - done.
Qed.

(** ** All phases *)
(** the side condition under which staged files are known to have the right
    content *)
Definition honest (c : config) (e : env) (f0 : fs) (sg : staged_changes) : Prop :=
  no_bad_304 e /\ no_links (staging_dir c) f0 /\ all_one (staged_entries sg).

Definition rsync_area (c : config) (p : path) : Prop := under (c_rsync_dir c) p \/ p = rsync_state_path c.

Section phases.
  Context (c : config) (base name : string) (e : env) (f0 : fs).

  (** [st]: recorded state; [n0]: the source's notification; [n]: the same,
      limited and sorted; [sg]: what was staged; [f1]: the tree after staging *)
  Record at_move (st : rrdp_state) (n0 n : notification) (sg : staged_changes) (f1 : fs) : Prop := {
    am_start : starts_from c base name f0 st;
    am_staged : staged_ok c e f0 base st sg n0 n;
    am_tree : stage_tree c f0 f1;
    am_files : honest c e f0 sg -> Forall (in_place (e_ext e) c f1) (staged_entries sg) }.
  (** [st']: the state with the staged changes; [f2]: the tree after moving *)
  Record at_clean st n0 n sg f1 (v : option validator) (st' : rrdp_state) (f2 : fs) : Prop := {
    ac_move : at_move st n0 n sg f1;
    ac_merged : merged e (set_validator st v) sg st';
    ac_tree : inside (move_area c sg) f1 f2;
    ac_files : honest c e f0 sg -> moving e c sg f1 f2 /\ Forall (published (e_ext e) c f2) (staged_entries sg);
    ac_check : check_step c (st_validator st) v }.
  (** [cb]: the time before which records have expired; [st2]: the state
      after cleaning; [f3]: the tree then *)
  Record at_rsync st n0 n sg f1 v st' f2 (cb : Z) (st2 : rrdp_state) (f3 : fs) : Prop := {
    ar_clean : at_clean st n0 n sg f1 v st' f2;
    ar_time : clean_time c e cb;
    ar_cleaned : cleaned cb st' st2;
    ar_tree : cleaning st' cb f2 f3;
    ar_gone : forall p, expired st' cb p -> fs_exists f3 p = false }.
  (** [f4]: the tree after the rsync step *)
  Record at_notify st n0 n sg f1 v st' f2 cb st2 f3 (f4 : fs) : Prop := {
    an_rsync : at_rsync st n0 n sg f1 v st' f2 cb st2 f3;
    an_tree : inside (rsync_area c) f3 f4;
    an_off : rsync_enabled c = false -> f4 = f3;
    an_step : rsync_enabled c = true -> exists snap rs g1 b els g2 g3 rs1 cy g4,
      rsync_done c e st2 f3 snap rs g1 b els g2 g3 rs1 cy g4 f4 }.
  (** [f5]: the tree with the new notification [n'] *)
  Record at_save st n0 n sg f1 v st' f2 cb st2 f3 f4 (n' : notification) (f5 : fs) : Prop := {
    as_notify : at_notify st n0 n sg f1 v st' f2 cb st2 f3 f4;
    as_notif : notif_of base st2 n';
    as_tree : notifying c name (x_write_notif (e_ext e) n') f4 f5;
    as_file : f5 !! notif_path c name = Some (File (x_write_notif (e_ext e) n') None) }.

  (** before the notification is written *)
  Inductive front_phase (g : fs) : Prop :=
  | P_stage : stage_tree c f0 g -> front_phase g
  | P_move st n0 n sg f1 : at_move st n0 n sg f1 -> inside (move_area c sg) f1 g ->
      (honest c e f0 sg -> moving e c sg f1 g) -> front_phase g
  | P_clean st n0 n sg f1 v st' f2 cb : at_clean st n0 n sg f1 v st' f2 -> clean_time c e cb ->
      cleaning st' cb f2 g -> front_phase g
  | P_rsync st n0 n sg f1 v st' f2 cb st2 f3 : at_rsync st n0 n sg f1 v st' f2 cb st2 f3 ->
      inside (rsync_area c) f3 g -> (g = f3 \/ (rsync_enabled c = true /\ rsync_mid c e st2 f3 g)) -> front_phase g.
  Inductive phase (g : fs) : Prop :=
  | P_front : front_phase g -> phase g
  | P_notify st n0 n sg f1 v st' f2 cb st2 f3 f4 n' :
      at_notify st n0 n sg f1 v st' f2 cb st2 f3 f4 -> notif_of base st2 n' ->
      notifying c name (x_write_notif (e_ext e) n') f4 g -> phase g
  | P_save st n0 n sg f1 v st' f2 cb st2 f3 f4 n' f5 :
      at_save st n0 n sg f1 v st' f2 cb st2 f3 f4 n' f5 ->
      saving c (state_text st2) f5 g -> phase g.

  Lemma notify_front st n0 n sg f1 v st' f2 cb st2 f3 f4 :
    at_notify st n0 n sg f1 v st' f2 cb st2 f3 f4 -> front_phase f4.
  Proof using.
    intros [H1 H2 H3 H4]. eapply P_rsync; [exact H1|exact H2|].
    destruct (rsync_enabled c); [|left; auto]. right. split; [done|].
    destruct (H4 eq_refl) as (snap & rs & g1 & b & els & g2 & g3 & rs1 & cy & g4 & [D1 D2 D3 D4 D5 D6 D7 D8]).
    by eapply RM_save.
  Qed.

  (** a completed change *)
  Definition completed (g : fs) : Prop :=
    exists st n0 n sg f1 v st' f2 cb st2 f3 f4 n' f5,
      at_save st n0 n sg f1 v st' f2 cb st2 f3 f4 n' f5 /\ saving c (state_text st2) f5 g /\
      g !! rrdp_state_path c = Some (File (state_text st2) None).
End phases.

(** the recorded state, if it can be read, was made by this configuration *)
Definition own_tree (c : config) (base name : string) (f : fs) : Prop :=
  wf f /\ (forall t, f !! rrdp_state_path c <> Some (Link t)) /\
  (forall st, recorded c f st -> good_state c base name st).

(** the hypotheses on the world under which the paths of a run are known *)
Record sane (c : config) (base name : string) (e : env) (f : fs) : Prop := {
  sn_cfg : cfg_ok c base name;
  sn_tree : own_tree c base name f;
  sn_notif : forall n, offers c e f n -> good_notif base name n;
  sn_snap : clean_snapshots (e_ext e) }.

Lemma wpt_ext {B} e J (m m' : M B) w (Q : res B -> world -> Prop) :
  m e w = m' e w -> wpt e J m w Q -> wpt e J m' w Q.
Proof. unfold wpt. by intros ->. Qed.
Lemma bind_assoc_run {B C D} (m : M B) (f : B -> M C) (g : C -> M D) e w :
  ((m ≫= f) ≫= g) e w = (m ≫= (fun x => f x ≫= g)) e w.
Proof. unfold mbind, M_bind. by destruct (m e w) as [[| |] ?]. Qed.

Section master.
  Context (c : config) (base name : string) (e : env) (f0 : fs) (Hs : sane c base name e f0).
  Let Hc : cfg_ok c base name := sn_cfg _ _ _ _ _ Hs.

  Lemma start_good st : starts_from c base name f0 st -> good_state c base name st.
  Proof using Hs.
    intros [[_ Hr]|[_ ->]]; [|apply good_first]. by apply (sn_tree _ _ _ _ _ Hs).
  Qed.
  Lemma staged_good st n0 n sg f1 en : at_move c base name e f0 st n0 n sg f1 ->
    en ∈ staged_entries sg -> good_rel name en.1.
  Proof using Hs.
    intros [A1 A2 A3 A4] Hin. destruct en as [rel h].
    destruct (entry_good c base name e f0 st sg n0 n rel h) as [H _]; try done.
    apply (sn_notif _ _ _ _ _ Hs). apply A2.
  Qed.
  Lemma merged_good st n0 n sg f1 v st' f2 : at_clean c base name e f0 st n0 n sg f1 v st' f2 ->
    good_state c base name st'.
  Proof using Hs.
    intros [A1 A2 A3 A4]. destruct A1 as [B1 B2 B3 B4].
    eapply (good_merged c base name e f0 (set_validator st v) sg n0 n); [| | |exact A2].
    - apply good_set_validator. by apply start_good.
    - apply (sn_notif _ _ _ _ _ Hs). apply B2.
    - destruct B2. by split.
  Qed.

  Notation phase := (front_phase c base name e f0).

  (** the run up to publishing *)
  Definition prepare : M (option (rrdp_state * staged_changes)) :=
    st ← load_state c;
    staged ← update_staged st c;
    match staged with
    | None => mret None
    | Some sg =>
        st1 ← pre_validate st c;
        pre_validate_scripts c ;;
        mret (Some (st1, sg))
    end.
  (** publishing, up to the notification *)
  Definition publish1 (o : option (rrdp_state * staged_changes)) : M (option rrdp_state) :=
    match o with
    | None => mret None
    | Some (st1, sg) =>
        st2 ← apply_staged_changed st1 sg c;
        when_ (rsync_enabled c) (update_from_rrdp_state st2 c) ;;
        mret (Some st2)
    end.
  Definition front : M (option rrdp_state) := prepare ≫= publish1.
  Definition back (o : option rrdp_state) : M unit :=
    match o with
    | None => mret tt
    | Some st2 => write_notification st2 (c_notify_delay c) ;; persist st2 (rrdp_state_path c)
    end.
  Lemma process_front w : process c e w = (front ≫= back) e w.
  Proof using.
    unfold process, front, prepare, publish1, publish_staged, mbind, M_bind.
    destruct (load_state c e w) as [[st| |] w1]; [|done..].
    destruct (update_staged st c e w1) as [[[sg|]| |] w2]; [|done..].
    destruct (pre_validate st c e w2) as [[st1| |] w3]; [|done..].
    destruct (pre_validate_scripts c e w3) as [[[]| |] w4]; [|done..].
    cbn. unfold M_bind.
    destruct (apply_staged_changed st1 sg c e w4) as [[st2| |] w5]; [|done..].
    by destruct (when_ (rsync_enabled c) (update_from_rrdp_state st2 c) e w5) as [[[]| |] w6].
  Qed.

  Lemma w_prepare :
    wpt e (on_fs (stage_tree c f0)) prepare (resume f0) (fun r w' =>
      stage_tree c f0 (w_fs w') /\
      (r = Ok None -> w_fs w' = f0 /\ exists st, starts_from c base name f0 st /\ no_news e c f0 st) /\
      forall st1 sg, r = Ok (Some (st1, sg)) -> exists st v n0 n,
        st1 = set_validator st v /\ at_move c base name e f0 st n0 n sg (w_fs w') /\
        check_step c (st_validator st) v).
  Proof using Hs.
    assert (Hwf0 : wf f0) by apply (sn_tree _ _ _ _ _ Hs).
    assert (P0 : stage_tree c f0 f0) by (by apply st_refl).
    unfold prepare. wp1. eapply (w_load_state c base name Hc); [|intros w1 x E1; rewrite E1; done].
    intros w1 st E1 Hst. cbn [resume w_fs] in E1, Hst. wp1.
    eapply wpt_conseq; [eapply (w_update_staged e c (stage_tree c f0) (st_mk c f0) (st_wr c f0) base name st w1
      (fun r w' => stage_tree c f0 (w_fs w') /\ (r = Ok None -> w_fs w' = f0 /\ no_news e c f0 st) /\
        (forall sg, r = Ok (Some sg) -> exists n0 n, at_move c base name e f0 st n0 n sg (w_fs w'))))| |].
    - by rewrite E1.
    - by rewrite (gs_map _ _ _ _ (start_good _ Hst)).
    - by rewrite (gs_source _ _ _ _ (start_good _ Hst)).
    - apply (ck_name _ _ _ Hc).
    - intros n0 u h rel Hoff Hin Eu. rewrite E1 in Hoff.
      by destruct (sn_notif _ _ _ _ _ Hs n0 Hoff _ _ _ Hin Eu).
    - intros n0 n Hsv u h. by eapply sav_refs.
    - intros x w' H. done.
    - intros w' H _. done.
    - intros w' H E Hnn. rewrite E1 in Hnn. split; [done|]. split; [by rewrite E|done].
    - intros w' sg n0 n H Hso Hpl. rewrite E1 in Hso, Hpl. split; [done|]. split; [done|]. intros sg' [= <-].
      exists n0, n. split; try done. intros (H1 & H2 & H3). by apply Hpl.
    - done.
    - intros [[sg|]|x|] w2 (HS2 & HN & HM); [|wp1|done..].
      2: { split; [done|]. split; [|done]. intros _. destruct (HN eq_refl). split; [done|]. by exists st. }
      destruct (HM _ eq_refl) as (n0 & n & Hmv). clear HM HN.
      wp1.
      eapply (wpt_quiet e _ (pre_validate st c) w2 (fun r => forall st', r = Ok st' -> exists v, st' = set_validator st v /\
           check_step c (st_validator st) v));
        [intros; apply q_pre_validate|apply pre_validate_check; apply Forall_app_2; [apply (ck_state _ _ _ Hc)|by constructor]|done|].
      intros [st1|x|] w3 E3 Hv; [|by rewrite E3..].
      destruct (Hv _ eq_refl) as (v & -> & Hck). clear Hv.
      wp1. eapply (wpt_quiet e _ (pre_validate_scripts c) w3 (fun _ => True));
        [intros; apply q_scripts|apply wpt_triv; intros; apply q_scripts|by rewrite E3|].
      intros [[]|x|] w4 E4 _; [|by rewrite E4, E3..].
      rewrite E3 in E4. wp1. rewrite E4. split; [done|]. split; [done|]. intros st1 sg' [= <- <-].
      by exists st, v, n0, n.
  Qed.

  Lemma w_front :
    wpt e (on_fs phase) front (resume f0) (fun r w' => phase (w_fs w') /\
      (r = Ok None -> w_fs w' = f0 /\ exists st, starts_from c base name f0 st /\ no_news e c f0 st) /\
      forall st2, r = Ok (Some st2) -> exists st n0 n sg f1 v st' f2 cb f3,
        at_notify c base name e f0 st n0 n sg f1 v st' f2 cb st2 f3 (w_fs w')).
  Proof using Hs.
    unfold front. wp1.
    eapply wpt_conseq; [exact w_prepare|intros []; cbn; auto; by apply P_stage|].
    intros [[[st1 sg]|]|x|] w4 (HS4 & HN & HM); cbn [publish1]; [|wp1|split; [by apply P_stage|done]|split; [by apply P_stage|done]].
    2: { split; [by apply P_stage|]. split; [|done]. intros _. by apply HN. }
    destruct (HM _ _ eq_refl) as (st & v & n0 & n & -> & Hmv & Hck). clear HM HN.
    assert (Hent : forall en, en ∈ staged_entries sg -> good_rel name en.1) by (intros; by eapply staged_good).
      pose (f1 := w_fs w4). assert (E4 : w_fs w4 = f1) by done. rewrite E4 in Hmv.
      wp1. unfold apply_staged_changed.
      eapply wpt_ext; [apply bind_assoc_run|]. fold (moves c sg). wp1.
      eapply wpt_conseq; [eapply (wpt_and_impl _ _ _ (honest c e f0 sg) (moves c sg) w4
        (fun _ w' => inside (move_area c sg) f1 (w_fs w'))
        (fun r w' => moving e c sg f1 (w_fs w') /\
           (r = Ok tt -> Forall (published (e_ext e) c (w_fs w')) (staged_entries sg))))| |].
      { eapply (k_moves c base name Hc e sg f1 Hent). rewrite E4. split; [apply HS4|apply mods_refl]. }
      { intros Hh. eapply (w_moves c base name Hc e sg f1 Hent); [apply HS4|by apply Hmv|apply Hh|done| |].
        - intros x w' H. done.
        - intros w' H1 H2. done. }
      { intros []; cbn; auto. intros [H1 H2]. by eapply P_move. }
      intros r w5 [HA5 HF5].
      assert (P5 : phase (w_fs w5)).
      { eapply P_move; [exact Hmv|exact HA5|]. intros H. by apply HF5. }
      destruct r as [[]|x|]; [|by split..].
      apply (w_apply_memory e (on_fs phase) ltac:(done) (set_validator st v) sg (fun st' => clean st' c)).
      intros w6 st' E6 Hmg.
      assert (Hcl : at_clean c base name e f0 st n0 n sg f1 v st' (w_fs w5)).
      { split; try done. intros H. destruct (HF5 H) as [H1 H2]. split; [done|]. by apply H2. }
      assert (Hg' : good_state c base name st') by (by eapply merged_good).
      assert (Hwf5 : wf (w_fs w5)) by apply HA5.
      set (cb := wrap64 (e_clock e (w_n w6) - c_cleanup_after c)).
      assert (Hcb : clean_time c e cb) by (by exists (w_n w6)).
      assert (Hdne : forall d, d ∈ st_deprecated st' -> dp_path d <> []).
      { intros d Hd. destruct (gs_deprecated _ _ _ _ Hg' _ Hd) as (rel & _ & ->). intros Ex.
        unfold public_path in Ex. apply app_eq_nil in Ex as [Ex _]. by apply (rrdp_ne c _ _ Hc). }
      eapply wpt_conseq; [eapply (w_cleaning e c st' w6 (fun r w' => cleaning st' cb (w_fs w5) (w_fs w') /\ r <> Panic /\
         forall st2, r = Ok st2 -> cleaned cb st' st2 /\ forall p, expired st' cb p -> fs_exists (w_fs w') p = false))| |].
      { by rewrite E6. } { done. }
      { rewrite E6. intros x w' H. split; [done|]. split; done. }
      { rewrite E6. intros w' st2 H1 H2 H3. split; [done|]. split; [done|]. intros st2' [= <-]. split; [done|].
        intros p (d & Hd1 & Hd2 & ->). by apply H3. }
      { rewrite E6. fold cb. intros []; cbn; auto. intros H. by eapply P_clean. }
      intros [st2|x|] w7 (HC7 & HP7 & HO7); [| |done].
      2: { split; [by eapply P_clean|done]. }
      destruct (HO7 _ eq_refl) as [Hcd Hgone]. clear HO7 HP7.
      assert (Har : at_rsync c base name e f0 st n0 n sg f1 v st' (w_fs w5) cb st2 (w_fs w7)) by (by split).
      assert (Hg2 : good_state c base name st2) by (by eapply good_cleaned).
      wp1.
      assert (Hk7 : wpt e (on_fs (inside (rsync_area c) (w_fs w7))) (when_ (rsync_enabled c) (update_from_rrdp_state st2 c)) w7
         (fun _ w' => inside (rsync_area c) (w_fs w7) (w_fs w'))).
      { apply (wpt_keeps e (inside (rsync_area c) (w_fs w7))); [|split; [apply HC7|apply mods_refl]|done].
        apply keeps_when. apply (k_update_from_rrdp c e (rsync_area c) (under (c_rsync_dir c)) (w_fs w7)).
        - intros p q H1 H2. left. by eapply under_trans.
        - intros [H|H]; [apply prefix_nil_inv in H; by apply (rsync_ne c _ _ Hc)|].
          rewrite rsync_state_eq in H. by destruct (c_state_dir c).
        - done.
        - by right.
        - apply (sn_snap _ _ _ _ _ Hs). }
      assert (Hy7 : wpt e (on_fs (fun g => g = w_fs w7 \/ (rsync_enabled c = true /\ rsync_mid c e st2 (w_fs w7) g)))
         (when_ (rsync_enabled c) (update_from_rrdp_state st2 c)) w7
         (fun r w' => (w_fs w' = w_fs w7 \/ (rsync_enabled c = true /\ rsync_mid c e st2 (w_fs w7) (w_fs w'))) /\
            (r = Ok tt -> (rsync_enabled c = false -> w_fs w' = w_fs w7) /\
              (rsync_enabled c = true -> exists snap rs g1 b els g2 g3 rs1 cy g4,
                 rsync_done c e st2 (w_fs w7) snap rs g1 b els g2 g3 rs1 cy g4 (w_fs w'))))).
      { destruct (rsync_enabled c); cbn [when_].
        2: { wp1. split; [by left|]. done. }
        eapply wpt_conseq; [apply w_rsync_step; [apply (sn_snap _ _ _ _ _ Hs)|apply HC7]|intros []; cbn; auto|].
        intros r w' [H1 H2]. split; [by right|]. intros Hr. split; [done|]. intros _.
        destruct (H2 Hr) as [[En _]|H]; [|done]. exfalso. rewrite Hcd in En. cbn in En.
        rewrite (mg_snap _ _ _ _ Hmg) in En. done. }
      eapply wpt_conseq; [exact (wpt_and _ _ _ _ _ _ _ Hk7 Hy7)| |].
      { intros []; cbn; auto. intros [H1 H2]. by eapply P_rsync. }
      intros r8 w8 (HI8 & HM8 & HO8).
      destruct r8 as [[]|x|]; [|split; [by eapply P_rsync|done]..].
      destruct (HO8 eq_refl) as [HF8 HD8]. clear HO8.
      assert (Han : at_notify c base name e f0 st n0 n sg f1 v st' (w_fs w5) cb st2 (w_fs w7) (w_fs w8)) by (by split).
      wp1. split; [by eapply P_rsync|]. split; [done|]. intros st2' [= <-]. by do 10 eexists.
  Qed.

  Lemma notif_of_unique st n n' : notif_of base st n -> notif_of base st n' -> n = n'.
  Proof using. intros (s & E & ->) (s' & E' & ->). congruence. Qed.
  Lemma notify_has st n0 n sg f1 v st' f2 cb st2 f3 f4 :
    at_notify c base name e f0 st n0 n sg f1 v st' f2 cb st2 f3 f4 -> exists n', notif_of base st2 n'.
  Proof using.
    intros [[[_ Hm _ _] _ -> _ _] _]. eexists. exists (sg_snap sg). split; [|done]. apply (mg_snap _ _ _ _ Hm).
  Qed.

  Lemma w_back st n0 n sg f1 v st' f2 cb st2 f3 n' w :
    at_notify c base name e f0 st n0 n sg f1 v st' f2 cb st2 f3 (w_fs w) -> notif_of base st2 n' ->
    wpt e (on_fs (fun g => g = w_fs w \/ notifying c name (x_write_notif (e_ext e) n') (w_fs w) g \/
             exists f5, at_save c base name e f0 st n0 n sg f1 v st' f2 cb st2 f3 (w_fs w) n' f5 /\
                        saving c (state_text st2) f5 g))
      (back (Some st2)) w (fun r w' => r = Ok tt -> exists f5,
        at_save c base name e f0 st n0 n sg f1 v st' f2 cb st2 f3 (w_fs w) n' f5 /\
        saving c (state_text st2) f5 (w_fs w') /\
        w_fs w' !! rrdp_state_path c = Some (File (state_text st2) None)).
  Proof using Hs.
    intros Han Hn'.
    assert (Hg2 : good_state c base name st2).
    { destruct Han as [[H1 _ H2 _ _] _]. eapply good_cleaned; [|exact H2]. by eapply merged_good. }
    unfold back. wp1.
    eapply wpt_conseq; [eapply (w_notify c base name Hc e st2 w
      (fun r w' => r <> Panic /\ (r = Ok tt ->
         notifying c name (x_write_notif (e_ext e) n') (w_fs w) (w_fs w') /\
         w_fs w' !! notif_path c name = Some (File (x_write_notif (e_ext e) n') None))))| |].
    { done. } { apply Han. } { done. }
    { intros w' n2 H1 H2 H3. rewrite (notif_of_unique _ _ _ H1 Hn') in *. done. }
    { intros []; cbn; auto. intros [->|(n2 & H1 & H2)]; [by left|]. rewrite (notif_of_unique _ _ _ H1 Hn') in *. auto. }
    intros [[]|x|] w9 (HP9 & HO9); [|done..].
    destruct (HO9 eq_refl) as (Hn2 & Hn3). clear HO9 HP9.
    assert (Has : at_save c base name e f0 st n0 n sg f1 v st' f2 cb st2 f3 (w_fs w) n' (w_fs w9)) by (by split).
    eapply wpt_conseq; [eapply (w_saving c e st2 w9
      (fun r w' => saving c (state_text st2) (w_fs w9) (w_fs w') /\
         (r = Ok tt -> w_fs w' !! rrdp_state_path c = Some (File (state_text st2) None))))| |].
    { apply Hn2. } { done. } { done. }
    { intros []; cbn; auto. intros H. right. right. by exists (w_fs w9). }
    intros r w10 [HS10 HO10] Hr. exists (w_fs w9). auto.
  Qed.

  Lemma trees_in l g : g ∈ trees l <-> EvFs g ∈ l.
  Proof using.
    induction l as [|ev l IH]; [by rewrite !elem_of_nil|]. rewrite elem_of_cons. destruct ev; cbn.
    1: { rewrite elem_of_cons, IH. split; intros [H|H]; auto; [left; congruence|left; by injection H]. }
    all: rewrite IH; split; [by right|by intros [?|?]].
  Qed.

  (** The story of a run: either it ends before the notification is touched, or
      there is one new notification document and one new state. *)
  Theorem run_story r w : run c e f0 = (r, w) ->
    ((forall g, g ∈ instants c e f0 -> front_phase c base name e f0 g) /\
     (r = Ok tt -> w_fs w = f0 /\ exists st, starts_from c base name f0 st /\ no_news e c f0 st)) \/
    exists st n0 n sg f1 v st' f2 cb st2 f3 f4 n',
      at_notify c base name e f0 st n0 n sg f1 v st' f2 cb st2 f3 f4 /\ notif_of base st2 n' /\
      (forall g, g ∈ instants c e f0 -> front_phase c base name e f0 g \/
         notifying c name (x_write_notif (e_ext e) n') f4 g \/
         exists f5, at_save c base name e f0 st n0 n sg f1 v st' f2 cb st2 f3 f4 n' f5 /\
                    saving c (state_text st2) f5 g) /\
      (r = Ok tt -> exists f5, at_save c base name e f0 st n0 n sg f1 v st' f2 cb st2 f3 f4 n' f5 /\
         saving c (state_text st2) f5 (w_fs w) /\
         w_fs w !! rrdp_state_path c = Some (File (state_text st2) None)).
  Proof using Hs.
    intros Hrun. unfold instants. rewrite Hrun. cbn [snd]. unfold run in Hrun.
    assert (Hwf0 : wf f0) by apply (sn_tree _ _ _ _ _ Hs).
    assert (P0 : phase f0) by (by apply P_stage, st_refl).
    rewrite process_front in Hrun. destruct w_front as (l & Ht & Hl & HP & HN & HS).
    cbn [resume w_trace app] in Ht. rewrite Forall_forall in Hl.
    unfold mbind, M_bind in Hrun. destruct (front e (resume f0)) as [r1 w1]. cbn [fst snd] in *.
    assert (Hfront : forall g, g ∈ trees l -> phase g).
    { intros g Hg. apply trees_in in Hg. by apply (Hl _ Hg). }
    destruct r1 as [[st2|]|x|].
    - right. destruct (HS _ eq_refl) as (st & n0 & n & sg & f1 & v & st' & f2 & cb & f3 & Han).
      destruct (notify_has _ _ _ _ _ _ _ _ _ _ _ _ Han) as [n' Hn'].
      exists st, n0, n, sg, f1, v, st', f2, cb, st2, f3, (w_fs w1), n'. split; [done|]. split; [done|].
      destruct (w_back _ _ _ _ _ _ _ _ _ _ _ _ _ Han Hn') as (l2 & Ht2 & Hl2 & HQ2).
      rewrite Hrun in *. cbn [fst snd] in *. split; [|done].
      intros g [->|Hg]%elem_of_cons; [by left|]. rewrite Ht2, Ht in Hg. apply trees_in in Hg.
      apply elem_of_app in Hg as [Hg|Hg]; [left; by apply (Hl _ Hg)|].
      rewrite Forall_forall in Hl2. destruct (Hl2 _ Hg) as [->|[H|H]]; auto.
    - left. injection Hrun as <- <-. split; [|intros _; by apply HN].
      intros g [->|Hg]%elem_of_cons; [done|]. apply Hfront. by rewrite <- Ht.
    - left. injection Hrun as <- <-. split; [|done].
      intros g [->|Hg]%elem_of_cons; [done|]. apply Hfront. by rewrite <- Ht.
    - left. injection Hrun as <- <-. split; [|done].
      intros g [->|Hg]%elem_of_cons; [done|]. apply Hfront. by rewrite <- Ht.
  Qed.

  Lemma instant_phase g : g ∈ instants c e f0 -> RunMaster.phase c base name e f0 g.
  Proof using Hs.
    intros Hg. destruct (run c e f0) as [r w] eqn:E.
    destruct (run_story r w E) as [[H _]|(st & n0 & n & sg & f1 & v & st' & f2 & cb & st2 & f3 & f4 & n' & H1 & H2 & H & _)].
    - apply P_front. by apply H.
    - destruct (H g Hg) as [?|[?|(f5 & ? & ?)]]; [by apply P_front|by eapply P_notify|by eapply P_save].
  Qed.
End master.
