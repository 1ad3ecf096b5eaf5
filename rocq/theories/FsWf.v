(** * Well-formed trees, and removing a file with its emptied parents *)
From Verif Require Export FsInv.

(** Everything lies in a directory. *)
Definition wf (f : fs) : Prop := forall p nd, f !! p = Some nd -> parent_is_dir f p = true.

Lemma parent_is_dir_spec f p :
  parent_is_dir f p = true <-> p <> [] /\ fs_get f (removelast p) = Some Dir.
Proof.
  unfold parent_is_dir. destruct p as [|c p]; [cbn; split; [done|by intros []]|].
  cbn [path_parent]. destruct (fs_get f (removelast (c :: p))) as [[| |]|] eqn:E;
    split; try done; by intros [_ ?].
Qed.

Lemma removelast_snoc {A} (p : list A) c : removelast (p ++ [c]) = p.
Proof. apply removelast_last. Qed.
Lemma path_snoc (p : path) : p <> [] -> exists q c, p = q ++ [c].
Proof. intros H. destruct (exists_last H) as (q & c & ->). eauto. Qed.

Lemma below_trans p q r : below p q -> below q r -> below p r.
Proof.
  intros [H1 H2] [H3 H4]. split; [by transitivity q|]. intros ->.
  apply H4. apply (anti_symm prefix); done.
Qed.
Lemma below_irrefl p : ~ below p p.
Proof. by intros []. Qed.
Lemma below_length p q : below p q -> length p < length q.
Proof.
  intros [[k ->] Hne]. rewrite app_length. destruct k; [|cbn; lia].
  exfalso. apply Hne. by rewrite app_nil_r.
Qed.
Lemma below_snoc p q c : below p (q ++ [c]) <-> p `prefix_of` q.
Proof.
  split.
  - intros [[k Hk] Hne]. destruct k as [|x k] using rev_ind.
    + rewrite app_nil_r in Hk. congruence.
    + rewrite app_assoc in Hk. apply app_inj_tail in Hk as [-> _]. by exists k.
  - intros [k ->]. split; [exists (k ++ [c]); by rewrite app_assoc|]. intros E.
    apply (f_equal length) in E. rewrite !app_length in E. cbn in E. lia.
Qed.

Lemma wf_below f p nd q : wf f -> f !! p = Some nd -> below q p -> q <> [] -> f !! q = Some Dir.
Proof.
  intros Hwf. remember (length p) as n eqn:Hn. revert p Hn nd.
  induction n as [n IH] using lt_wf_ind. intros p -> nd Hp Hb Hq.
  pose proof (Hwf _ _ Hp) as [Hne Hd]%parent_is_dir_spec.
  destruct (path_snoc _ Hne) as (r & c & ->). rewrite removelast_snoc in Hd.
  apply below_snoc in Hb. destruct (decide (q = r)) as [->|Hqr].
  - by rewrite fs_get_nonroot in Hd.
  - assert (Hbr : below q r) by done.
    assert (Hr : r <> []) by (intros ->; apply below_length in Hbr; cbn in Hbr; lia).
    rewrite fs_get_nonroot in Hd by done.
    eapply (IH (length r)); [|reflexivity|exact Hd|done|done]. rewrite app_length. cbn. lia.
Qed.

(** ** Closure of [wf] *)
Lemma parent_is_dir_insert f p q nd :
  parent_is_dir f p = true -> (q = removelast p -> nd = Dir) -> parent_is_dir (<[q := nd]> f) p = true.
Proof.
  rewrite !parent_is_dir_spec. intros [H1 H2] H3. split; [done|].
  destruct (removelast p) as [|c r] eqn:E; [done|]. cbn [fs_get] in *.
  destruct (decide (q = c :: r)) as [->|ne].
  - rewrite lookup_insert. by rewrite H3.
  - by rewrite lookup_insert_ne.
Qed.
Lemma wf_mk P : mk_ok wf P.
Proof.
  intros f q Hwf _ Hq Hn Hpd p nd Hp. destruct (decide (p = q)) as [->|ne].
  - by apply parent_is_dir_insert.
  - rewrite lookup_insert_ne in Hp by done. apply parent_is_dir_insert; eauto.
Qed.
(** replacing a non-directory (or nothing) by a non-directory *)
Lemma wf_put f p nd : wf f -> f !! p <> Some Dir -> p <> [] -> parent_is_dir f p = true -> wf (<[p := nd]> f).
Proof.
  intros Hwf Hst Hp Hpd q nd' Hq.
  assert (Hnp : forall r, parent_is_dir f r = true -> p = removelast r -> nd = Dir).
  { intros r Hr ->. apply parent_is_dir_spec in Hr as [_ Hr].
    rewrite fs_get_nonroot in Hr by done. done. }
  destruct (decide (q = p)) as [->|ne].
  - apply parent_is_dir_insert; eauto.
  - rewrite lookup_insert_ne in Hq by done. apply parent_is_dir_insert; eauto.
Qed.
Lemma wf_wr p b : wr_ok wf p b.
Proof.
  intros f b' Hwf _ Hp Hst Hpd. apply wf_put; auto.
  destruct Hst as [->|(c & t & ->)]; done.
Qed.
Lemma wf_delete f p : wf f -> (forall q nd, f !! q = Some nd -> removelast q = p -> q = []) -> wf (delete p f).
Proof.
  intros Hwf Hno q nd Hq. apply lookup_delete_Some in Hq as [Hne Hq].
  pose proof (Hwf _ _ Hq) as [H1 H2]%parent_is_dir_spec. apply parent_is_dir_spec. split; [done|].
  destruct (decide (removelast q = p)) as [Ep|Ep]; [by destruct H1; eapply Hno|].
  destruct (removelast q) as [|c r] eqn:E; [done|]. cbn [fs_get] in *.
  rewrite lookup_delete_ne; auto.
Qed.
Lemma wf_rmf p : rmf_ok wf p.
Proof.
  intros f nd Hwf Hp Hf Hnd. apply wf_delete; [done|]. intros q nd' Hq <-.
  pose proof (Hwf _ _ Hq) as [H1 H2]%parent_is_dir_spec.
  rewrite fs_get_nonroot in H2 by done. congruence.
Qed.
Lemma has_children_false f p : has_children f p = false <-> forall q nd, f !! q = Some nd -> ~ below p q.
Proof.
  unfold has_children. split.
  - intros H q nd Hq Hb. apply not_true_iff_false in H. apply H.
    apply existsb_exists. exists (q, nd). split; [|by apply bool_decide_eq_true].
    apply elem_of_list_In. by apply elem_of_map_to_list.
  - intros H. apply not_true_iff_false. intros H'. apply existsb_exists in H' as ([q nd] & Hin & Hb).
    apply elem_of_list_In, elem_of_map_to_list in Hin. apply bool_decide_eq_true in Hb. cbn in Hb.
    eapply H; eauto.
Qed.
Lemma removelast_below (q : path) : q <> [] -> below (removelast q) q.
Proof. intros H. apply below_parent; done. Qed.
Lemma wf_rmd P : rmd_ok wf P.
Proof.
  intros f q Hwf _ Hq Hf Hc. apply wf_delete; [done|]. intros r nd Hr <-.
  rewrite has_children_false in Hc. destruct (decide (r = [])) as [->|Hne]; [done|].
  exfalso. eapply Hc; [exact Hr|]. by apply removelast_below.
Qed.
Lemma wf_mv o t : mv_ok wf o t.
Proof.
  intros f b m Hwf Ho Ht Hf Hnd Hpd.
  assert (H1 : wf (delete o f)) by (by eapply wf_rmf).
  destruct (decide (o = t)) as [->|Hot].
  - rewrite insert_delete_insert. by apply wf_put.
  - apply wf_put; auto.
    + rewrite lookup_delete_ne by done. done.
    + apply parent_is_dir_spec in Hpd as [_ Hpd]. apply parent_is_dir_spec. split; [done|].
      destruct (removelast t) as [|c r] eqn:E; [done|]. cbn [fs_get] in *.
      rewrite lookup_delete_ne; [done|]. intros ->. congruence.
Qed.

(** ** [remove_up] *)
Section rm.
  Context (e : env) (I : fs -> Prop) (P : path -> Prop).

  Lemma w_remove_dirs rp w :
    I (w_fs w) -> rmd_ok I P -> (forall q, q `prefix_of` reverse rp -> q <> [] -> P q) ->
    (forall q, q `prefix_of` reverse rp -> q <> [] -> w_fs w !! q = Some Dir) ->
    wpt e (on_fs I) (remove_up rp) w (fun r w' =>
      I (w_fs w') /\ r <> Panic /\
      mods (fun _ => False) (fun q => q `prefix_of` reverse rp /\ q <> []) (w_fs w) (w_fs w')).
  Proof.
    revert w. induction rp as [|c rp IH]; intros w HI Hrm HP Hd.
    - cbn [remove_up]. apply wpt_bind, wpt_is_file. cbn [fs_is_file fs_stat fs_get reverse rev_append].
      apply wpt_bind, wpt_bind, wpt_is_dir. cbn.
      apply wpt_fs_step.
      + intros _. split; [done|]. split; [done|]. apply mods_refl.
      + intros mids fin E. done.
    - cbn [remove_up]. assert (Hne : reverse (c :: rp) <> []).
      { rewrite reverse_cons. by destruct (reverse rp). }
      pose proof (Hd _ (reflexivity _) Hne) as Hdir.
      apply wpt_bind, wpt_is_file.
      unfold fs_is_file, fs_stat. rewrite fs_get_nonroot, Hdir by done.
      apply wpt_bind, wpt_bind, wpt_is_dir.
      unfold fs_is_dir, fs_stat. rewrite fs_get_nonroot, Hdir by done.
      eapply w_remove_dir; [exact HI|exact Hrm|by apply HP| |].
      + intros x w' E. rewrite E. split; [done|]. split; [done|]. apply mods_refl.
      + intros w' HI' E _. apply wpt_bind, wpt_catch.
        assert (Hpre : forall q, q `prefix_of` reverse rp -> q `prefix_of` reverse (c :: rp)).
        { intros q Hq. rewrite reverse_cons. by apply prefix_app_r. }
        eapply wpt_post.
        * apply IH; auto.
          intros q Hq Hqne. rewrite E. rewrite lookup_delete_ne; [by apply Hd; auto|].
          intros <-. apply prefix_length in Hq. rewrite reverse_cons, app_length in Hq. cbn in Hq. lia.
        * intros r w'' (H1 & H2 & H3).
          assert (Hm : mods (fun _ => False) (fun q => q `prefix_of` reverse (c :: rp) /\ q <> []) (w_fs w) (w_fs w'')).
          { eapply mods_trans.
            - rewrite E in H3. eapply (mods_rmdir _ _ _ (w_fs w)); [|exact Hdir|apply mods_refl].
              left. split; [done|exact Hne].
            - rewrite <- E. eapply mods_weaken; [| |exact H3]; [done|]. cbn. intros q [? ?]. left. auto. }
          destruct r as [[]|x|]; [| |done]; apply wpt_ret; split; try done; split; done.
  Qed.

  (** the caller checks that the path exists; errors of the parents are ignored *)
  Lemma w_remove_path p w (Q : res unit -> world -> Prop) :
    I (w_fs w) -> wf (w_fs w) -> fs_exists (w_fs w) p = true -> rmf_ok I p -> rmd_ok I P ->
    (forall q, q `prefix_of` p -> q <> [] -> P q) ->
    (forall x w', w_fs w' = w_fs w -> Q (Err x) w') ->
    (forall w', I (w_fs w') ->
        mods (fun q => q = p) (fun q => below q p /\ q <> []) (w_fs w) (w_fs w') ->
        w_fs w' !! p = None -> Q (Ok tt) w') ->
    wpt e (on_fs I) (remove_file_and_empty_parent_dirs p) w Q.
  Proof.
    intros HI Hwf Hex Hrmf Hrmd HP HE HQ. unfold remove_file_and_empty_parent_dirs.
    destruct (decide (p = [])) as [->|Hne].
    { cbn [reverse rev_append remove_up]. apply wpt_bind, wpt_is_file.
      cbn [fs_is_file fs_stat fs_get]. apply wpt_bind, wpt_bind, wpt_is_dir. cbn.
      apply wpt_fs_step; [intros _; by apply HE|]. intros mids fin E. done. }
    destruct (path_snoc _ Hne) as (p' & c & ->).
    rewrite reverse_app. cbn [reverse rev_append app].
    change (rev_append p' []) with (reverse p'). cbn [remove_up].
    assert (Epath : reverse (c :: reverse p') = p' ++ [c]).
    { by rewrite reverse_cons, reverse_involutive. }
    rewrite Epath. clear Epath. set (p := p' ++ [c]) in *.
    (* the parents *)
    assert (Hpar : forall w', I (w_fs w') -> w_fs w' = delete p (w_fs w) \/ w_fs w' = w_fs w ->
              is_Some (w_fs w !! p) ->
              wpt e (on_fs I) (remove_up (reverse p')) w' (fun r w'' =>
                 I (w_fs w'') /\ r <> Panic /\
                 mods (fun _ => False) (fun q => below q p /\ q <> []) (w_fs w') (w_fs w''))).
    { intros w' HI' E [nd Hnd]. eapply wpt_post; [apply w_remove_dirs; [exact HI'|exact Hrmd| |]|].
      - rewrite reverse_involutive. intros q Hq Hqne. apply HP; [|done]. by apply prefix_app_r.
      - rewrite reverse_involutive. intros q Hq Hqne.
        assert (Hb : below q p) by (by apply below_snoc).
        pose proof (wf_below _ _ _ _ Hwf Hnd Hb Hqne) as Hdd.
        destruct E as [-> | ->]; [|done]. rewrite lookup_delete_ne; [done|]. intros <-. by apply below_irrefl in Hb.
      - rewrite reverse_involutive. intros r w'' (H1 & H2 & H3). split; [done|]. split; [done|].
        eapply mods_weaken; [| |exact H3]; [done|]. intros q [Hq ?]. left. split; [|done]. by apply below_snoc. }
    apply wpt_bind, wpt_is_file.
    destruct (fs_is_file (w_fs w) p) eqn:Hf.
    - apply wpt_bind. eapply w_remove_file; [exact HI|exact Hrmf|exact HE|].
      intros w' HI' E (nd & Hnd & Hndd). apply wpt_bind, wpt_catch.
      eapply wpt_post; [apply Hpar; eauto|]. intros r w'' (H1 & H2 & H3).
      assert (Hm : mods (fun q => q = p) (fun q => below q p /\ q <> []) (w_fs w) (w_fs w'')).
      { eapply mods_trans; [|eapply mods_weaken; [| |exact H3]]; [|done|cbn; auto].
        rewrite E. apply mods_delete; [done|]. apply mods_refl. }
      assert (Hn : w_fs w'' !! p = None).
      { rewrite (mods_same _ _ _ _ p H3); [rewrite E; apply lookup_delete|auto|].
        intros [Hb _]. by apply below_irrefl in Hb. }
      destruct r as [[]|x|]; [| |done]; apply wpt_ret; apply HQ; auto.
    - apply wpt_bind, wpt_bind, wpt_is_dir. destruct (fs_is_dir (w_fs w) p) eqn:Hd.
      + eapply w_remove_dir; [exact HI|exact Hrmd|by apply HP|exact HE|].
        intros w' HI' E Hnd. apply wpt_bind, wpt_catch.
        eapply wpt_post; [apply Hpar; eauto|]. intros r w'' (H1 & H2 & H3).
        assert (Hm : mods (fun q => q = p) (fun q => below q p /\ q <> []) (w_fs w) (w_fs w'')).
        { eapply mods_trans; [|eapply mods_weaken; [| |exact H3]]; [|done|cbn; auto].
          rewrite E. apply mods_delete; [done|]. apply mods_refl. }
        assert (Hn : w_fs w'' !! p = None).
        { rewrite (mods_same _ _ _ _ p H3); [rewrite E; apply lookup_delete|auto|].
          intros [Hb _]. by apply below_irrefl in Hb. }
        destruct r as [[]|x|]; [| |done]; apply wpt_ret; apply HQ; auto.
      + exfalso. unfold fs_exists, fs_is_file, fs_is_dir in *.
        destruct (fs_stat (w_fs w) p) as [[| |]|] eqn:Es; try done.
        unfold fs_stat in Es. destruct (fs_get (w_fs w) p) as [[| |]|]; try done.
        destruct (fs_get _ _) as [[| |]|]; done.
  Qed.
End rm.
