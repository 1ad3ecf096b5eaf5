(** * What a client that has read the notification can still fetch: C62 *)
From Coq Require Import ZifyN ZifyNat ZifyBool.
From Verif Require Import DemoRun PropsCopied.
From Verif Require Import FsWf HistoryProofs.

(** ** The specification *)
(** [T]: the time the client started; every reading of the clock in this run is
    at or after [T], and less than the cleanup time after it *)
Definition soon (T : Z) (c : config) (e : env) : Prop :=
  forall a, (T <= e_clock e a < T + c_cleanup_after c)%Z /\
    (- 2 ^ 63 <= e_clock e a - c_cleanup_after c < 2 ^ 63)%Z.

(** A run on the tree [f] within that time.  The source has published version
    [k] before it and version [k'] at its end; staged files can be renamed into
    place. *)
Record run_within (T : Z) (c : config) (x : ext) (src : nat -> notification) (k k' : nat)
    (c' : config) (e : env) (f : fs) : Prop := {
  rw_places : same_places c c';
  rw_max : c_max_deltas c' = c_max_deltas c;
  rw_ext : e_ext e = x;
  rw_304 : no_bad_304 e;
  rw_rename : ~ may_copy e;
  rw_soon : soon T c' e;
  rw_later : k <= k';
  rw_source : forall n, offers c' e f n -> exists i, k <= i /\ i <= k' /\ n = src i }.

Definition displays (c : config) (name : string) (x : ext) (f : fs) (n : notification) : Prop :=
  f !! notif_path c name = Some (File (x_write_notif x n) None).

(** [client c base name x src T n k f]: a client has read the notification [n];
    since then, other runs have been started, completed, failed or been killed
    at any instant, and the tree is now [f].  The client has read [n] between
    runs, or while a run was under way. *)
Inductive client (c : config) (base name : string) (x : ext) (src : nat -> notification) (T : Z) (n : notification) :
    nat -> fs -> Prop :=
| cl_rest k f : follows c base name x src k f -> displays c name x f n -> client c base name x src T n k f
| cl_during k k' f c' e i g j g' : follows c base name x src k f -> run_within T c x src k k' c' e f ->
    instants c' e f !! i = Some g -> displays c name x g n ->
    instants c' e f !! j = Some g' -> i <= j -> client c base name x src T n k' g'
| cl_run k k' f c' e g : client c base name x src T n k f -> run_within T c x src k k' c' e f ->
    g ∈ instants c' e f -> client c base name x src T n k' g
| cl_else k f g : client c base name x src T n k f -> wf g -> (forall p, owned c p -> g !! p = f !! p) ->
    client c base name x src T n k g.

(** ** Proof *)
(** the instants of a run in order: before the new notification is written, and
    after *)
Lemma run_order c base name e f : sane c base name e f ->
  exists l1 l2, instants c e f = l1 ++ l2 /\ Forall (front_phase c base name e f) l1 /\
    (l2 = [] \/ exists st n0 n sg f1 v st' f2 cb st2 f3 f4 n',
      at_notify c base name e f st n0 n sg f1 v st' f2 cb st2 f3 f4 /\ notif_of base st2 n' /\
      forall g, g ∈ l2 -> g = f4 \/ notifying c name (x_write_notif (e_ext e) n') f4 g \/
         exists f5, at_save c base name e f st n0 n sg f1 v st' f2 cb st2 f3 f4 n' f5 /\
                    saving c (state_text st2) f5 g).
Proof.
  intros Hs. unfold instants, run.
  assert (P0 : front_phase c base name e f f).
  { apply P_stage, st_refl. apply (sn_tree _ _ _ _ _ Hs). }
  rewrite (process_front c e). destruct (w_front c base name e f Hs) as (l & Ht & Hl & HP & HN & HS).
  cbn [resume w_trace app] in Ht. rewrite Forall_forall in Hl. unfold mbind at 1, M_bind at 1.
  destruct (front c e (resume f)) as [r1 w1]. cbn [fst snd] in *.
  assert (Hfront : Forall (front_phase c base name e f) (f :: trees l)).
  { apply Forall_cons. split; [done|]. apply Forall_forall. intros g Hg. apply trees_in in Hg. by apply (Hl _ Hg). }
  destruct r1 as [[st2|]|x|].
  - destruct (HS _ eq_refl) as (st & n0 & n & sg & f1 & v & st' & f2 & cb & f3 & Han).
    destruct (notify_has c base name e f _ _ _ _ _ _ _ _ _ _ _ _ Han) as [n' Hn'].
    destruct (w_back c base name e f Hs _ _ _ _ _ _ _ _ _ _ _ _ _ Han Hn') as (l2 & Ht2 & Hl2 & HQ2).
    exists (f :: trees l), (trees l2). split; [|split; [done|]].
    + rewrite Ht2, Ht. cbn. f_equal. clear. induction l as [|[] l IH]; cbn; congruence.
    + right. exists st, n0, n, sg, f1, v, st', f2, cb, st2, f3, (w_fs w1), n'. split; [done|]. split; [done|].
      intros g Hg. apply trees_in in Hg. rewrite Forall_forall in Hl2. by apply (Hl2 _ Hg).
  - exists (f :: trees l), []. cbn. rewrite Ht, app_nil_r. auto.
  - exists (f :: trees l), []. cbn. rewrite Ht, app_nil_r. auto.
  - exists (f :: trees l), []. cbn. rewrite Ht, app_nil_r. auto.
Qed.

Section clients.
  Context (c : config) (base name : string) (x : ext) (src : nat -> notification).
  Context (Hc : cfg_ok c base name) (Hstable : stable_source x (c_max_deltas c) src)
    (Hgood : forall i, good_notif base name (src i)) (Hsnap : clean_snapshots x).
  Context (Hinj : forall n n', x_write_notif x n = x_write_notif x n' -> n = n').
  Notation inv := (inv c base name x src).
  Notation listed := (listed c base x src).
  Notation NF := (notif_path c name).

  (** [P]: files promised to clients since [T] *)
  Record promised (T : Z) (P : list (string * hash)) (k : nat) (g : fs) : Prop := {
    pr_inv : exists L, inv k L g;
    pr_listed : forall rel h, (rel, h) ∈ P -> exists se ki sr, listed k se ki rel sr h;
    pr_files : forall en, en ∈ P -> published x c g en;
    pr_since : forall st d rel h, starts_from c base name g st -> d ∈ st_deprecated st -> (rel, h) ∈ P ->
      dp_path d = public_path c rel -> (T <= dp_since d)%Z }.

  Lemma inv_promised T k L g : inv k L g -> promised T L k g.
  Proof.
    intros Hi. split; [by exists L|apply Hi|apply Hi|]. intros st d rel h Hst Hd Hin Ep. exfalso.
    destruct (iv_state _ _ _ _ _ _ _ _ Hi st Hst) as (_ & _ & H). by eapply H.
  Qed.

  Section one_run.
    Context (T : Z) (k k' : nat) (L : list (string * hash)) (f : fs) (c' : config) (e : env).
    Context (Hi : inv k L f) (Hw : run_within T c x src k k' c' e f).
    Let Hpl := rw_places _ _ _ _ _ _ _ _ _ Hw.
    Let Hmax := rw_max _ _ _ _ _ _ _ _ _ Hw.
    Let Hx := rw_ext _ _ _ _ _ _ _ _ _ Hw.
    Let H304 := rw_304 _ _ _ _ _ _ _ _ _ Hw.
    Let Hkk := rw_later _ _ _ _ _ _ _ _ _ Hw.
    Let Hoff := rw_source _ _ _ _ _ _ _ _ _ Hw.
    Lemma within_copy : may_copy e -> settled c base name x f.
    Proof. intros H. by destruct (rw_rename _ _ _ _ _ _ _ _ _ Hw). Qed.
    Lemma within_patient : patient c' e.
    Proof.
      intros a b. destruct (rw_soon _ _ _ _ _ _ _ _ _ Hw a) as [H1 H2], (rw_soon _ _ _ _ _ _ _ _ _ Hw b) as [H3 H4].
      split; lia.
    Qed.
    Lemma within_sane : sane c' base name e f.
    Proof. eapply (run_sane c base name x src Hc Hgood Hsnap k k' L); eauto. Qed.
    Lemma within_honest : honest_run c' e f.
    Proof. eapply (run_honest_ c base name x src Hstable k k' L); eauto. Qed.
    Lemma within_clean cb t : clean_time c' e cb -> (T <= t)%Z -> (cb < t)%Z.
    Proof.
      intros [a ->] Ht. destruct (rw_soon _ _ _ _ _ _ _ _ _ Hw a) as [H1 H2].
      unfold wrap64. rewrite Z.mod_small by lia. lia.
    Qed.
    Lemma within_clock t : run_clock e t -> (T <= t)%Z.
    Proof. intros [a ->]. apply (rw_soon _ _ _ _ _ _ _ _ _ Hw a). Qed.
    Lemma within_inv g : g ∈ instants c' e f -> exists L', inv k' L' g.
    Proof.
      eapply (run_inv c base name x src Hc Hstable Hgood Hsnap k k' L); eauto using within_copy, within_patient.
    Qed.

    (** the state a tree of the run holds: the old one or the new one *)
    Lemma within_state g st1 : g ∈ instants c' e f -> starts_from c base name g st1 ->
      starts_from c base name f st1 \/ exists st n0 n sg f1 v st' f2 cb st2 f3 f4 v',
        at_notify c' base name e f st n0 n sg f1 v st' f2 cb st2 f3 f4 /\ st1 = set_validator st2 v'.
    Proof.
      intros Hg%(instant_phase c' base name e f within_sane) Hst%(places_starts c c' base name Hpl).
      pose proof within_sane as Hs. pose proof (sn_cfg _ _ _ _ _ Hs) as Hc'.
      destruct Hg as [H|st n0 n sg f1 v st' f2 cb st2 f3 f4 n' H1 H2 H3|st n0 n sg f1 v st' f2 cb st2 f3 f4 n' f5 H1 H2].
      - left. apply (places_starts c c' base name Hpl). eapply start_plain; [exact Hs| |exact Hst]. by eapply front_sp.
      - left. apply (places_starts c c' base name Hpl). eapply start_plain; [exact Hs| |exact Hst]. by eapply notify_sp.
      - pose proof H1 as [H1a H1b H1c H1d].
        destruct (saved_state c' base name Hc' e f Hs f5 g st2 st1) as [H|[v' H]]; try done.
        + eapply save_good; [exact Hs|exact H1a].
        + by eapply notify_sp.
        + left. by apply (places_starts c c' base name Hpl).
        + right. exists st, n0, n, sg, f1, v, st', f2, cb, st2, f3, f4, v'. done.
    Qed.
    (** new records carry a time of this run *)
    Lemma within_dep st n0 n sg f1 v st' f2 cb st2 f3 f4 d :
      at_notify c' base name e f st n0 n sg f1 v st' f2 cb st2 f3 f4 -> d ∈ st_deprecated st2 ->
      d ∈ st_deprecated st \/ (T <= dp_since d)%Z.
    Proof.
      intros [[[_ Hm _ _] _ -> _ _] _]. cbn. intros [_ Hd]%elem_of_list_filter.
      destruct (mg_deprecated _ _ _ _ Hm) as (deps & M1 & M2 & M3). rewrite M1 in Hd.
      apply elem_of_app in Hd as [Hd|Hd]; [by left|]. right. apply within_clock. rewrite Forall_forall in M3. by apply M3.
    Qed.

    Context (P : list (string * hash)) (HP : promised T P k f).
    Lemma promised_good en : en ∈ P -> good_rel name en.1.
    Proof.
      destruct en as [rel h]. intros Hin. destruct (pr_listed _ _ _ _ HP _ _ Hin) as (se & ki & sr & i & n & _ & Hv & Ha).
      cbn. eapply (Hgood i _ h); [|done]. eapply in_use_refs; [exact Hv|]. apply listing_ref. by eexists.
    Qed.
    Lemma promised_stays g en : en ∈ P -> g ∈ instants c' e f -> published x c g en.
    Proof.
      intros Hin Hg%(instant_phase c' base name e f within_sane). destruct en as [rel h].
      pose proof (promised_good _ Hin) as Hr. cbn in Hr.
      destruct (pr_listed _ _ _ _ HP _ _ Hin) as (se & ki & sr & Hl). pose proof (pr_files _ _ _ _ HP _ Hin) as Hp.
      pose proof within_sane as Hs. pose proof within_honest as Hh.
      destruct (phase_fate c' base name e f Hs Hh g (public_path c' rel)) as [E|[(n0 & n & rel' & h' & F1 & F2 & F3 & F4 & F5)|(E & cb & t & Hcb & Hrec & Hle)]].
      - apply public_under.
      - destruct (good_rel_apart c' name rel Hr) as [Ha _]. by apply apart_neq.
      - destruct (good_rel_apart c' name rel Hr) as [_ Ha]. by apply apart_neq.
      - done.
      - eapply published_view; [|exact Hp]. cbn. by rewrite <- (places_public c c' Hpl).
      - apply public_path_inj in F4. subst rel'. destruct F5 as [F5|(Hm & _)].
        2: { by destruct (rw_rename _ _ _ _ _ _ _ _ _ Hw). }
        rewrite Hx in F5. apply (places_published c c' Hpl) in F5.
        enough (h' = h) by (by subst h').
        destruct (src_version c x src k k' f c' e Hmax Hx Hoff _ _ F1) as (j & _ & Hj & Hv).
        apply listing_ref in F2 as (a & Ha & Eu & <-).
        pose proof (ver_listed c base x src j n k' a rel Hv Hj Ha Eu) as Hl'.
        by destruct (listed_eq c base x src Hstable _ _ _ _ _ _ _ _ _ _ _ Hl' Hl) as (_ & _ & _ & ?).
      - exfalso. enough (cb < t)%Z by lia. apply (within_clean cb t Hcb).
        destruct Hrec as (st & Hst & [(d & Hd & Ep & <-)|[Ht _]]); [|by apply within_clock].
        rewrite (places_public c c' Hpl) in Ep. eapply (pr_since _ _ _ _ HP); [|exact Hd|exact Hin|exact Ep].
        by apply (places_starts c c').
    Qed.
    Lemma promised_run g : g ∈ instants c' e f -> promised T P k' g.
    Proof.
      intros Hg. split.
      - by apply within_inv.
      - intros rel h Hin. destruct (pr_listed _ _ _ _ HP _ _ Hin) as (se & ki & sr & Hl). do 3 eexists.
        eapply listed_mono; [..|exact Hl]; done.
      - intros en Hin. by apply promised_stays.
      - intros st1 d rel h Hst Hd Hin Ep.
        destruct (within_state g st1 Hg Hst) as [H|(st & n0 & n & sg & f1 & v & st' & f2 & cb & st2 & f3 & f4 & v' & Ha & ->)].
        + by eapply (pr_since _ _ _ _ HP).
        + cbn in Hd. destruct (within_dep _ _ _ _ _ _ _ _ _ _ _ _ _ Ha Hd) as [H|H]; [|done].
          eapply (pr_since _ _ _ _ HP); [|exact H|exact Hin|exact Ep].
          apply (places_starts c c' base name Hpl). apply Ha.
    Qed.
  End one_run.

  (** what the served notification lists is promised *)
  Lemma displayed k L g n : inv k L g -> displays c name x g n ->
    refs n = (fun en => (base +:+ en.1, en.2)) <$> L.
  Proof.
    intros Hi Hd. unfold displays in Hd. destruct (iv_notif _ _ _ _ _ _ _ _ Hi) as [[_ E]|(n' & E & Hr)]; [congruence|].
    rewrite E in Hd. injection Hd as Hd. by apply Hinj in Hd as ->.
  Qed.
  (** while a run is under way *)
  Lemma promised_during T k k' f c' e i g j g' n : follows c base name x src k f -> run_within T c x src k k' c' e f ->
    instants c' e f !! i = Some g -> displays c name x g n -> instants c' e f !! j = Some g' -> i <= j ->
    exists P, refs n = (fun en => (base +:+ en.1, en.2)) <$> P /\ promised T P k' g'.
  Proof.
    intros Hf Hw Hgi Hn Hgj Hij. destruct (follows_inv c base name x src Hc Hstable Hgood Hsnap k f Hf) as [L Hi].
    pose proof (elem_of_list_lookup_2 _ _ _ Hgi) as Hg. pose proof (elem_of_list_lookup_2 _ _ _ Hgj) as Hg'.
    pose proof (within_sane T k k' L f c' e Hi Hw) as Hs. pose proof (sn_cfg _ _ _ _ _ Hs) as Hc'.
    pose proof (rw_places _ _ _ _ _ _ _ _ _ Hw) as Hpl.
    destruct (decide (g !! NF = f !! NF)) as [E|Hne].
    { exists L. assert (Hn' : displays c name x f n) by (unfold displays in *; by rewrite <- E).
      split; [by eapply displayed|]. eapply promised_run; [exact Hi|exact Hw|by apply inv_promised|done]. }
    rewrite <- (places_N c c' name Hpl) in Hne.
    destruct (run_order c' base name e f Hs) as (l1 & l2 & El & H1 & H2).
    assert (Hl1 : length l1 <= i).
    { destruct (Nat.le_gt_cases (length l1) i) as [?|Hlt]; [done|]. exfalso. rewrite El, lookup_app_l in Hgi by done.
      apply elem_of_list_lookup_2 in Hgi. rewrite Forall_forall in H1. apply Hne. eapply front_N; [exact Hc'|exact Hs|]. by apply H1. }
    rewrite El, lookup_app_r in Hgi, Hgj by lia. apply elem_of_list_lookup_2 in Hgi, Hgj.
    destruct H2 as [->|(st & n0 & n1 & sg & f1 & v & st' & f2 & cb & st2 & f3 & f4 & n' & Ha & Hn' & H2)]; [by apply elem_of_nil in Hgi|].
    assert (E4 : f4 !! notif_path c' name = f !! notif_path c' name).
    { eapply front_N; [exact Hc'|exact Hs|]. by eapply notify_front. }
    assert (Hx : e_ext e = x) by apply Hw.
    assert (En : n = n').
    { apply Hinj. assert (Ed : g !! notif_path c' name = Some (File (x_write_notif x n') None)).
      { destruct (H2 g Hgi) as [->|[H|(f5 & H & Hsv)]].
        - by rewrite E4 in Hne.
        - destruct (no_notif _ _ _ _ _ H) as [E|E]; [by rewrite E, E4 in Hne|]. by rewrite E, Hx.
        - rewrite (save_N c' base name Hc' _ _ _ Hsv). by rewrite (as_file _ _ _ _ _ _ _ _ _ _ _ _ _ _ _ _ _ _ _ H), Hx. }
      unfold displays in Hn. rewrite <- (places_N c c' name Hpl), Ed in Hn. by injection Hn. }
    subst n'. exists (state_files st2). split; [by apply refs_of|].
    assert (Hstart : starts_from c base name f st) by (apply (places_starts c c' base name Hpl); apply Ha).
    pose proof (rw_max _ _ _ _ _ _ _ _ _ Hw) as Hmax. pose proof (rw_304 _ _ _ _ _ _ _ _ _ Hw) as H304.
    pose proof (rw_later _ _ _ _ _ _ _ _ _ Hw) as Hkk. pose proof (rw_source _ _ _ _ _ _ _ _ _ Hw) as Hoff.
    pose proof (within_copy T k k' f c' e Hw) as Hcopy. pose proof (within_patient T k k' f c' e Hw) as Hpat.
    assert (Hnv : forall doc g', notifying c' name doc f4 g' ->
      forall rel, good_rel name rel -> view g' (public_path c' rel) = view f4 (public_path c' rel)).
    { intros doc h Hh rel Hr. destruct (good_rel_apart c' name rel Hr) as [N1 N2].
      eapply (notify_view c' name); [by apply apart_neq|by apply apart_neq|exact Hh]. }
    split.
    - eapply within_inv; [exact Hi|exact Hw|done].
    - intros rel h Hin. eapply (new_listed c base name x src); eauto.
    - intros en Hin. eapply (new_files c base name x src Hc Hstable Hgood Hsnap k k' L f c' e); eauto.
      + by apply instant_phase.
      + destruct (H2 g' Hgj) as [->|[H|(f5 & H & Hsv)]]; [done|by eapply Hnv|].
        intros rel Hr. rewrite (save_view c' base name e f Hs _ _ _ _ (public_under c' rel) Hsv).
        eapply Hnv; [|done]. apply H.
    - intros st1 d rel h Hst Hd Hin Ep. exfalso.
      assert (Hst1 : starts_from c base name f st1 \/ exists v', st1 = set_validator st2 v').
      { apply (places_starts c c' base name Hpl) in Hst. destruct (H2 g' Hgj) as [->|[H|(f5 & H & Hsv)]].
        - left. apply (places_starts c c' base name Hpl). eapply start_plain; [exact Hs| |exact Hst].
          eapply front_sp; [exact Hc'|exact Hs|]. by eapply notify_front.
        - left. apply (places_starts c c' base name Hpl). eapply start_plain; [exact Hs| |exact Hst]. by eapply notify_sp.
        - pose proof H as [Ha1 Hb1 Hc1 Hd1].
          destruct (saved_state c' base name Hc' e f Hs f5 g' st2 st1) as [HH|HH]; try done.
          + eapply save_good; [exact Hs|exact Ha1].
          + by eapply notify_sp.
          + left. by apply (places_starts c c' base name Hpl).
          + by right. }
      destruct Hst1 as [H|[v' ->]].
      + rewrite (starts_unique _ _ _ _ _ _ H Hstart) in Hd. revert Ep. eapply (new_apart c base name x src); eauto.
      + assert (HS : state_inv c base x src k' st2) by (eapply (new_state_inv c base name x src); eauto).
        by eapply (si_apart _ _ _ _ _ _ HS).
  Qed.

  (** others change other things *)
  Lemma else_inv k L f g : inv k L f -> wf g -> (forall p, owned c p -> g !! p = f !! p) -> inv k L g.
  Proof.
    intros [I1 I2 I3 I4 I5 I6] H1 H2.
    assert (HN : owned c NF) by (right; left; apply under_app).
    assert (Hpub : forall en, published x c f en -> published x c g en).
    { intros en (b & m & E & Eh). exists b, m. split; [|done]. rewrite H2; [done|]. right. left. apply public_under. }
    split.
    - eapply own_else; [done|done|]. apply H2, owned_sp.
    - intros p t Hp. rewrite H2 by (by left). by apply I2.
    - by rewrite H2.
    - done.
    - auto.
    - intros st Hst. assert (Hst' : starts_from c base name f st).
      { eapply starts_plain; [apply H2, owned_sp| |done]. apply I1. }
      destruct (I6 st Hst') as (J1 & J2 & J3). split; [done|]. split; [auto|done].
  Qed.

  Lemma client_promised T n k f : client c base name x src T n k f ->
    exists P, refs n = (fun en => (base +:+ en.1, en.2)) <$> P /\ promised T P k f.
  Proof.
    induction 1 as [k f Hf Hn|k k' f c' e i g j g' Hf Hw H1 H2 H3 H4|k k' f c' e g Hcl (P & Hr & IH) Hw Hg|k f g Hcl (P & Hr & IH) H1 H2].
    - destruct (follows_inv c base name x src Hc Hstable Hgood Hsnap k f Hf) as [L Hi]. exists L.
      split; [by eapply displayed|by apply inv_promised].
    - exact (promised_during T k k' f c' e i g j g' n Hf Hw H1 H2 H3 H4).
    - exists P. split; [done|]. destruct (pr_inv _ _ _ _ IH) as [L Hi]. by eapply promised_run.
    - exists P. split; [done|]. destruct IH as [[L Hi] I1 I2 I3]. split.
      + exists L. by eapply else_inv.
      + exact I1.
      + intros en Hin. destruct (I2 en Hin) as (b & m & E & Eh). exists b, m. split; [|exact Eh].
        rewrite H2; [done|]. right. left. apply public_under.
      + intros st d rel h Hst. eapply I3. eapply starts_plain; [apply H2, owned_sp| |exact Hst].
        apply (iv_own _ _ _ _ _ _ _ _ Hi).
  Qed.
End clients.

(** ** C62 *)
(** A client that has read a notification, between runs or during one, can fetch
    every file it lists, with the listed content, at every instant until the
    cleanup time is over, whatever runs come in between. *)
Theorem C62_fetchable c base name x src T n k f :
  cfg_ok c base name ->
  stable_source x (c_max_deltas c) src ->
  (forall i, good_notif base name (src i)) ->
  clean_snapshots x ->
  (forall n n', x_write_notif x n = x_write_notif x n' -> n = n') ->
  client c base name x src T n k f ->
  forall u h, (u, h) ∈ refs n -> exists rel b m,
    u = base +:+ rel /\ f !! public_path c rel = Some (File b m) /\ x_hash x b = h.
Proof.
  intros Hc Hst Hg Hsn Hinj Hcl u h Hin.
  destruct (client_promised c base name x src Hc Hst Hg Hsn Hinj T n k f Hcl) as (P & Hr & HP).
  rewrite Hr in Hin. apply elem_of_list_fmap in Hin as ([rel h'] & [= -> ->] & Hin). exists rel.
  destruct (pr_files _ _ _ _ _ _ _ _ _ HP _ Hin) as (b & m & H1 & H2). by exists b, m.
Qed.

(** The demo source after a client has read the notification of the first run:
    the second run drops a delta, the third one drops everything that is left.
    The files are still there. *)
Definition read1 : notification :=
  mkNotif uuid_A 3 (base +:+ snap_rel uuid_A 3) (demo_hash (snap_doc uuid_A 3))
    ((fun i => mkDI i (base +:+ delta_rel uuid_A i) (demo_hash (delta_doc uuid_A i))) <$> [3; 2]%N).
Lemma within3 i : i <= 2 -> 1 <= i -> run_within 1000 demo_config safe_ext src3 (pred i) i demo_config (env3 i) (tree3 i).
Proof.
  intros Hi H1. split; [done|done|done|apply serve_no_304|apply serve_no_copy| |lia|].
  - intros a. cbn. lia.
  - intros n ->%env3_offers; [|done]. exists i. split; [lia|]. done.
Qed.
Lemma last_instant c e f : exists j, instants c e f !! j = Some (after (run c e f)).
Proof. apply elem_of_list_lookup_1, after_instant. Qed.
Definition read1_b (f g : fs) : bool :=
  bool_decide (f !! notif_path demo_config name = Some (File (x_write_notif safe_ext read1) None)) &&
  match shown g with
  | Some n3 => bool_decide (Forall (fun r => r ∉ refs n3) (refs read1))
  | None => false
  end.
Lemma read1_facts : read1_b (tree_at 1) (tree_at 3) = true.
Proof. vm_cast_no_check (eq_refl true). Qed.
Example C62_applies :
  client demo_config base name safe_ext src3 1000 read1 2 (tree3 3) /\
  (forall n n', x_write_notif safe_ext n = x_write_notif safe_ext n' -> n = n') /\
  length (refs read1) = 3 /\
  exists n3, shown (tree3 3) = Some n3 /\ forall r, r ∈ refs read1 -> r ∉ refs n3.
Proof.
  pose proof read1_facts as H. rewrite !tree_at_eq in H by lia. apply andb_prop in H as [H1 H2].
  apply bool_decide_eq_true in H1.
  split; [|split; [exact demo_write_inj|split; [reflexivity|]]].
  - destruct (last_instant demo_config (env3 1) (tree3 1)) as [j Hj].
    eapply (cl_run _ _ _ _ _ _ _ 1 2 (tree3 2) demo_config (env3 2)); [|apply (within3 2); lia|apply after_instant].
    exact (cl_during _ _ _ _ _ _ _ 0 1 (tree3 1) demo_config (env3 1) 0 _ j _ (follows3 1 ltac:(lia)) (within3 1 ltac:(lia) ltac:(lia))
      eq_refl H1 Hj (Nat.le_0_l j)).
  - destruct (shown (tree3 3)) as [n3|]; [|done]. exists n3. split; [done|]. apply bool_decide_eq_true in H2.
    by rewrite Forall_forall in H2.
Qed.
Print Assumptions C62_fetchable.
