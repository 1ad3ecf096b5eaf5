(** * Lookups after a failed one (C50) *)
From Verif Require Import PropsValidator.

(** If a lookup of a repository fails, then either there was cached data for it,
    which it leaves in place, and every later lookup in the same run, however
    many others there are in between, returns this old data without contacting
    anyone; or no data for it is left. *)
Theorem C50_after_failure e off when v w u v1 x w1 v2 w2 :
  get_latest v u off when e w = (Ok (v1, inr x), w1) ->
  rtc (lookup_step e off when) (v1, w1) (v2, w2) ->
  (exists d d1, vi_data v !! u = Some d /\ same_content d d1 /\
     get_latest v2 u off when e w2 = (Ok (v2, inl d1), w2)) \/
  (vi_data v1 !! u = None /\
   (vi_data v !! u = None \/
    exists d n, vi_data v !! u = Some d /\ offered_notif e (w_fs w) (get_fetcher v u) n /\
      (n_session n, n_serial n) <> (rd_session d, rd_serial d))).
Proof.
  intros E Hr.
  destruct (vi_data v1 !! u) as [d1|] eqn:E1.
  - left.
    assert (H : (exists d, vi_data v !! u = Some d /\ d1 = mark_fetched d) /\
      forall w' , get_latest v1 u off when e w' = (Ok (v1, inl d1), w')).
    { assert (H : exists d, vi_data v !! u = Some d /\ d1 = mark_fetched d).
      { revert E. unfold get_latest. destruct (vi_data v !! u) as [d|] eqn:Ed.
        - destruct (rd_fetched d) eqn:Ef; [done|]. intros E. exists d. split; [done|]. revert E.
          assert (Hv1 : vi_data (set_data v (<[u:=mark_fetched d]> (vi_data v))) !! u = Some (mark_fetched d)) by (cbn; apply lookup_insert).
          assert (Hn : forall d', vi_data (set_data v (<[u:=d']> (vi_data v))) !! u = Some d') by (intros; cbn; apply lookup_insert).
          assert (Hdel : vi_data (set_data v (delete u (vi_data v))) !! u = None) by (cbn; apply lookup_delete).
          destruct off; [unfold mret, M_ret; rewrite Hv1; done|]. unfold mbind, M_bind, clock.
          destruct (Z.ltb _ _); [unfold mret, M_ret; rewrite Hv1; done|].
          destruct (catch (read_notification_file (get_fetcher v u) (rd_etag d)) e _) as [[[[n t|]|x']| |] w3]; [| | |done|done].
          + destruct (bool_decide _ && _); [unfold mret, M_ret; rewrite Hv1; done|].
            destruct (catch (data_from_deltas n t d (get_fetcher v u) when) e w3) as [[[d'|]| |] w4]; [| |done|done].
            * unfold mret, M_ret. by rewrite Hn.
            * destruct (catch (data_from_snapshot n t (get_fetcher v u) when) e w4) as [[[d'|]| |] w5]; [| |done|done].
              -- unfold mret, M_ret. by rewrite Hn.
              -- unfold mret, M_ret. intros [= <- _ _]. by rewrite Hdel in E1.
          + unfold mret, M_ret. by rewrite Hv1.
          + unfold mret, M_ret. intros [= <- _ _]. rewrite Hv1 in E1. by injection E1 as <-.
        - destruct off; [unfold mret, M_ret; intros [= <- _ _]; congruence|]. unfold mbind, M_bind.
          destruct (catch _ e w) as [[[d'|]| |] w4]; [| |done|done]; unfold mret, M_ret.
          + assert (Hn : vi_data (set_data v (<[u:=d']> (vi_data v))) !! u = Some d') by (cbn; apply lookup_insert). by rewrite Hn.
          + intros [= <- _ _]. congruence. }
      split; [done|]. intros w'. destruct H as (d & _ & ->). unfold get_latest. rewrite E1. done. }
    destruct H as [(d & Hd & ->) H]. exists d, (mark_fetched d). split; [done|]. split; [done|].
    eapply (C37_not_again e off when v1 w1 u v1); [apply H|done].
  - right. split; [done|].
    apply C32_lookup in E as (v1' & r & [= <- <-] & _ & _ & _ & Ho & _). rewrite E1 in Ho.
    inversion Ho as [HA|? ? HA|? ? ? ? ? ? ? ? HA|? ? HA|d n Hof Hne HA]; subst; [by left|]. right. by exists d, n.
Qed.
(** Without data left, a further lookup asks the repository again, or, offline,
    fails again. *)
Theorem C50_without_data e off when v w u r w' :
  vi_data v !! u = None -> get_latest v u off when e w = (r, w') ->
  (off = true -> r = Ok (v, inr ENoData) /\ w' = w) /\
  (exists x, r = Ok (v, inr x)) \/
  (off = false /\ exists v' d n, r = Ok (v', inl d) /\ vi_data v' !! u = Some d /\
     offered_notif e (w_fs w) (get_fetcher v u) n /\
     rd_session d = n_session n /\ rd_serial d = n_serial n /\ snapshot_of e (w_fs w) (get_fetcher v u) n (rd_objects d)).
Proof.
  intros Ed E. pose proof E as E'. unfold get_latest in E. rewrite Ed in E. destruct off.
  - left. unfold mret, M_ret in E. injection E as <- <-. split; [done|]. by eexists.
  - unfold mbind, M_bind in E. destruct (catch _ e w) as [[[d|x]| |] w1] eqn:Ec.
    + right. split; [done|]. apply C32_lookup in E' as (v' & r' & -> & _ & _ & _ & Ho & Hd).
      unfold mret, M_ret in E. assert (Hn : vi_data (set_data v (<[u:=d]> (vi_data v))) !! u = Some d) by (cbn; apply lookup_insert).
      rewrite Hn in E. injection E as <- <- <-. rewrite Ed, Hn in Ho.
      inversion Ho as [HA|? ? HA|? ? ? ? ? ? ? ? HA|? ? n Hof H1 H2 H3 HA|]; subst. by exists (set_data v (<[u:=d]> (vi_data v))), d, n.
    + left. split; [done|]. unfold mret, M_ret in E. injection E as <- <-. by eexists.
    + unfold catch in Ec. destruct (retrieve_new_repository _ _ e w) as [[]?]; done.
    + left. unfold catch in Ec. apply C32_lookup in E' as (v' & r' & -> & _ & _ & _ & Ho & Hd). done.
Qed.
(** old data and a source that does not answer *)
Example C50_applies :
  match get_latest (mkVisited ∅ {[notif_uri := old_data]}) notif_uri false 9000 (demo_env [] 9000) start with
  | (Ok (v1, inr _), w1) => vi_data v1 !! notif_uri = Some (mark_fetched old_data) /\ w_trace w1 <> []
  | _ => False
  end /\
  match get_latest (mkVisited ∅ ∅) notif_uri false 9000 (demo_env docs3 9000) start with
  | (Ok (v1, inl d), _) => rd_serial d = 3%N
  | _ => False
  end.
Proof. vm_compute. done. Qed.
Print Assumptions C50_after_failure.
Print Assumptions C50_without_data.
