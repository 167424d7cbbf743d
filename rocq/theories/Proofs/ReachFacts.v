(** * Invariants of all histories *)
From Verif Require Import Model.Base Model.State Model.Dec Model.Value Model.Encoder Model.Hdf5 Model.Runtime Model.Driver.
From Verif Require Import Spec.DecSpec Spec.EncSpec Spec.DriverSpec Spec.ReachSpec Proofs.BaseFacts Proofs.DiskFacts Proofs.DriverFacts Proofs.EncFacts.
From Coq Require Import Lia.

#[local] Arguments dupdate : simpl never.
#[local] Arguments fresh_read : simpl never.
(** ** Shape: dictionaries have distinct keys, no delta is ever queued *)
Definition shape (v : driver) : Prop := NoDup (dkeys (dv_writes v)) /\ NoDup (dkeys (dv_cache v)) /\ dv_deltas v = [] /\ dv_bypass v = false.
Lemma NoDup_filter {V} (p : pystr * V -> bool) (d : dict V) : NoDup (dkeys d) -> NoDup (dkeys (filter p d)).
Proof.
  induction d as [|kv d IH]; cbn [filter]; intros H; [exact H|]. inversion H as [|? ? Hn Hd]; subst.
  destruct (p kv); [|apply IH, Hd]. constructor; [|apply IH, Hd].
  intros Hi. apply Hn. unfold dkeys in *. apply in_map_iff in Hi as (x & E & Hi). apply filter_In in Hi as [Hi _]. rewrite <- E. apply in_map, Hi.
Qed.
Lemma set_shape k x b w : shape (w_drv w) -> shape (w_drv (snd (set k x b w))).
Proof.
  intros (H1 & H2 & H3 & H4). destruct (set_spec k x b w) as [(y & r & t & _ & _ & _ & H & _)|(e & r & _ & H)]; rewrite H; destruct (w_drv w); cbn in *; repeat split; auto.
  apply NoDup_dset; assumption.
Qed.
Lemma ro_shape {A} (m : st driver A) w : reads_only m -> shape (w_drv w) -> shape (w_drv (snd (on_drv m w))).
Proof.
  intros H (H1 & H2 & H3 & H4). unfold on_drv. destruct (H (w_drv w)) as (x & Hx). destruct (m (w_drv w)) as [r v]. cbn in *. subst.
  destruct (w_drv w); cbn in *; repeat split; assumption.
Qed.
Lemma run_op_shape o w : shape (w_drv w) -> shape (w_drv (run_op o w)).
Proof.
  intros H. destruct o as [k|k v b|k|ord p|p]; cbn [run_op].
  - apply ro_shape; [apply ro_get|exact H].
  - apply set_shape, H.
  - apply set_shape, H.
  - apply ro_shape; [apply ro_items|exact H].
  - destruct w as [v r], H as (H1 & H2 & H3 & H4). destruct v; cbn in *. repeat split; auto. apply NoDup_filter, H2.
Qed.
Lemma commit_inv v v' : commit v = (Ok tt, v') ->
  exists d', commit_all (dv_writes v) (dv_disk v) = (Ok tt, d') /\ v' = set_reads [] (set_writes [] (set_cache [] (set_disk d' v))).
Proof.
  unfold commit. rewrite bind_eq. cbn [gets]. rewrite bind_eq. unfold on_disk.
  destruct (commit_all (dv_writes v) (dv_disk v)) as [[[]|e] d']; [|discriminate]. intros H. injection H as <-. exists d'. split; reflexivity.
Qed.
Lemma hard_apply_inv n v v' : shape v -> hard_apply n v = (Ok tt, v') ->
  exists d', foreach (apply_one n) (map (delta_of (dv_reads v)) (dv_writes v)) (dv_disk v) = (Ok tt, d') /\
    v' = set_disk d' (set_writes [] (set_reads [] (set_cache (dupdate (dv_cache v) (dv_writes v)) v))).
Proof.
  intros (H1 & H2 & H3 & H4) H. rewrite hard_apply_eq in H by assumption. cbv zeta in H.
  destruct (foreach (apply_one n) (map (delta_of (dv_reads v)) (dv_writes v)) (dv_disk v)) as [[[]|e] d']; [|discriminate].
  injection H as <-. exists d'. split; reflexivity.
Qed.
Lemma rollback_none v : rollback None v = (Ok tt, set_deltas [] (set_writes [] (set_reads [] (set_cache [] v)))).
Proof. reflexivity. Qed.
Lemma rollback_some n v : dv_deltas v = [] -> rollback (Some n) v = (Ok tt, v).
Proof. intros H. destruct v; cbn in *. subst. reflexivity. Qed.
Lemma history_shape U good w : history U good w -> shape (w_drv w).
Proof.
  induction 1 as [d r|o w _ IH _|w v' _ IH HC|n w v' _ IH HH|o w v' _ IH HR]; cbn [w_drv].
  - repeat split; constructor.
  - apply run_op_shape, IH.
  - apply commit_inv in HC as (d' & _ & ->). destruct IH as (_ & _ & H3 & H4). destruct (w_drv w); cbn in *. repeat split; try constructor; auto.
  - apply hard_apply_inv in HH; [|exact IH]. destruct HH as (d' & _ & ->). destruct IH as (H1 & H2 & H3 & H4).
    destruct (w_drv w); cbn in *. repeat split; try constructor; auto. apply NoDup_dupdate, H2.
  - destruct o as [n|].
    + rewrite rollback_some in HR by apply IH. injection HR as <-. exact IH.
    + rewrite rollback_none in HR. injection HR as <-. destruct IH as (_ & _ & H3 & H4). destruct (w_drv w); cbn in *. repeat split; try constructor; auto.
Qed.

(** ** Values *)
Lemma storable_coerce x y : storable x -> coerce x = Ok y -> storable y.
Proof.
  intros HS H. destruct x; cbn [coerce] in H; try (injection H as <-; exact HS).
  - destruct (cd_of_str repr) as [d|] eqn:E; [|discriminate]. injection H as <-. cbn [storable]. exact (c_str _ _ E).
  - destruct (cd_of_str (str_of_dec d)) as [d'|] eqn:E; [|discriminate]. injection H as <-. cbn [storable]. exact (c_str _ _ E).
Qed.
Lemma last_value_sep (P : pystr -> Prop) k (l : dict pyval) :
  (forall k', P k' -> place_of k = place_of k' -> k = k') -> NoDup (dkeys l) -> Forall (fun kv => P (fst kv)) l ->
  last_value (place_of k) l = dget k l.
Proof.
  intros HS. induction l as [|[k' y] l IH]; cbn [last_value dget]; intros Hd HU; [reflexivity|].
  inversion Hd as [|? ? Hn Hd']; inversion HU as [|? ? HU1 HU2]; subst. cbn [fst] in *. rewrite IH by assumption.
  destruct (str_eqb_spec k k') as [->|Hk].
  - apply dget_None in Hn. unfold dkeys in Hn. rewrite Hn. destruct (place_eqb_spec (place_of k') (place_of k')); [reflexivity|congruence].
  - destruct (dget k l); [reflexivity|]. destruct (place_eqb_spec (place_of k) (place_of k')) as [E|]; [|reflexivity].
    exfalso. apply Hk, HS; assumption.
Qed.
Lemma separate_places U : separate U -> forall k, U k -> forall k', U k' -> place_of k = place_of k' -> k = k'.
Proof.
  intros HS k Hk k' Hk' E. apply HS; auto. rewrite same_place_eqb. destruct (place_eqb_spec (place_of k) (place_of k')); congruence.
Qed.

(** ** Coherence of the cache with the disk *)
Definition good_dict (U : pystr -> Prop) (d : dict pyval) : Prop := Forall (fun kv => U (fst kv) /\ storable (snd kv)) d.
Definition coherent (U : pystr -> Prop) (v : driver) : Prop :=
  shape v /\ good_dict U (dv_writes v) /\ good_dict U (dv_cache v) /\
  forall k x, dget k (dv_cache v) = Some x -> exists y, fresh_read (dv_disk v) k = Ok y /\ same x y.
Lemma good_dset (U : pystr -> Prop) k x d : good_dict U d -> U k -> storable x -> good_dict U (dset k x d).
Proof.
  intros H Hk Hx. induction d as [|[k' y] d IH]; cbn [dset].
  - constructor; [auto|constructor].
  - inversion H as [|? ? H1 H2]; subst. destruct (str_eqb k k') eqn:E.
    + constructor; [split; [apply H1|exact Hx]|exact H2].
    + constructor; [exact H1|apply IH, H2].
Qed.
Lemma good_dupdate (U : pystr -> Prop) d e : good_dict U d -> good_dict U e -> good_dict U (dupdate d e).
Proof.
  unfold dupdate. revert d. induction e as [|[k x] e IH]; intros d Hd He; cbn [fold_left]; [exact Hd|].
  inversion He as [|? ? [H1 H1'] H2]; subst. apply IH; [|exact H2]. apply good_dset; assumption.
Qed.
Lemma good_filter (U : pystr -> Prop) p d : good_dict U d -> good_dict U (filter p d).
Proof. intros H. unfold good_dict in *. rewrite Forall_forall in *. intros kv Hi. apply filter_In in Hi as [Hi _]. auto. Qed.
Lemma dget_filter {V} (p : pystr -> bool) k (d : dict V) x : dget k (filter (fun kv => p (fst kv)) d) = Some x -> dget k d = Some x.
Proof.
  induction d as [|[k' y] d IH]; cbn [filter dget fst]; [discriminate|]. destruct (p k') eqn:Ep; cbn [dget].
  - destruct (str_eqb k k'); auto.
  - intros H. specialize (IH H). destruct (str_eqb_spec k k') as [->|]; [|exact IH].
    exfalso. clear IH. induction d as [|[k2 z] d IH]; cbn [filter dget fst] in H; [discriminate|].
    destruct (p k2) eqn:E2; cbn [dget] in H; [|auto]. destruct (str_eqb_spec k' k2) as [->|]; [congruence|auto].
Qed.
Lemma coherent_set (U : pystr -> Prop) k x b w : U k -> storable x -> coherent U (w_drv w) -> coherent U (w_drv (snd (set k x b w))).
Proof.
  intros Hk Hx (HS & HW & HC & HF). split; [apply set_shape, HS|].
  destruct (set_spec k x b w) as [(y & r & t & Hc & _ & _ & H & _)|(e & r & _ & H)]; rewrite H; destruct (w_drv w); cbn in *; repeat split; auto.
  apply good_dset; auto. eapply storable_coerce; eassumption.
Qed.
Lemma ro_coherent {A} (U : pystr -> Prop) (m : st driver A) w : reads_only m -> coherent U (w_drv w) -> coherent U (w_drv (snd (on_drv m w))).
Proof.
  intros Hm (HS & HW & HC & HF). split; [apply ro_shape; assumption|]. unfold on_drv. destruct (Hm (w_drv w)) as (x & Hx).
  destruct (m (w_drv w)) as [r v]. cbn in *. subst. destruct (w_drv w); cbn in *; auto.
Qed.
Lemma coherent_op (U : pystr -> Prop) o w : op_in U storable o -> coherent U (w_drv w) -> coherent U (w_drv (run_op o w)).
Proof.
  intros HO H. destruct o as [k|k v b|k|ord p|p]; cbn [run_op op_in] in *.
  - apply ro_coherent; [apply ro_get|exact H].
  - destruct HO. apply coherent_set; assumption.
  - apply coherent_set; [exact HO|exact I|exact H].
  - apply ro_coherent; [apply ro_items|exact H].
  - pose proof H as (HS & HW & HC & HF). split; [apply (run_op_shape (OExpire p)), HS|].
    destruct w as [v r]; destruct v; cbn in *. split; [exact HW|]. split; [apply good_filter, HC|].
    intros k x Hx. apply (HF k x). eapply (dget_filter (fun k => negb (p k))), Hx.
Qed.
Lemma stored_form_same x : storable x -> exists y, decode (new_value x) = Ok y /\ same x y.
Proof.
  intros HS. destruct (encode_decode x HS) as (t & w & E & D & S). destruct x; try (exists w; unfold new_value; rewrite E; split; assumption).
  exists VNone. split; [reflexivity|constructor].
Qed.
Lemma coherent_hard (U : pystr -> Prop) n v v' : separate U -> (forall k, U k -> key_ok k) ->
  coherent U v -> hard_apply n v = (Ok tt, v') -> coherent U v'.
Proof.
  intros HU HK (HS & HW & HC & HF) HH. pose proof HS as (S1 & S2 & S3 & S4).
  apply hard_apply_inv in HH; [|exact HS]. destruct HH as (d' & HA & ->).
  apply apply_all_attrs in HA as [_ HA].
  destruct v as [dl wr rd tx ev ca by_ di]; cbn in *. subst.
  split; [repeat split; cbn; try constructor; apply NoDup_dupdate, S2|].
  cbn. split; [constructor|]. split; [apply good_dupdate; assumption|].
  intros k x Hx. rewrite dget_dupdate in Hx by exact S1.
  assert (HUk : U k).
  { unfold good_dict in *. rewrite Forall_forall in *. destruct (dget k wr) as [z|] eqn:E.
    - apply dget_In in E. apply (HW _ E).
    - apply dget_In in Hx. apply (HC _ Hx). }
  assert (HL : last_value (place_of k) wr = dget k wr).
  { apply (last_value_sep U); [apply separate_places; auto|exact S1|].
    unfold good_dict in HW. rewrite Forall_forall in *. intros kv Hi. apply (HW _ Hi). }
  rewrite fresh_read_attrs by auto. rewrite HA, HL.
  destruct (dget k wr) as [z|] eqn:E.
  - injection Hx as <-. cbn [at_value]. apply stored_form_same. unfold good_dict in HW. rewrite Forall_forall in HW. apply dget_In in E. apply (HW _ E).
  - destruct (HF k x Hx) as (y & Hy & Hs). rewrite fresh_read_attrs in Hy by auto. eauto.
Qed.
Lemma history_coherent (U : pystr -> Prop) w : separate U -> (forall k, U k -> key_ok k) -> history U storable w -> coherent U (w_drv w).
Proof.
  intros HU HK. induction 1 as [d r|o w H0 IH HO|w v' H0 IH HC|n w v' H0 IH HH|o w v' H0 IH HR]; cbn [w_drv].
  - split; [repeat split; constructor|]. repeat split; try constructor. discriminate.
  - apply coherent_op; assumption.
  - apply commit_inv in HC as (d' & _ & ->). destruct IH as ((_ & _ & H3 & H4) & _). destruct (w_drv w); cbn in *.
    split; [repeat split; try constructor; assumption|]. repeat split; try constructor. discriminate.
  - eapply coherent_hard; eassumption.
  - destruct o as [n|].
    + rewrite rollback_some in HR by apply IH. injection HR as <-. exact IH.
    + rewrite rollback_none in HR. injection HR as <-. destruct IH as ((_ & _ & H3 & H4) & _). destruct (w_drv w); cbn in *.
      split; [repeat split; try constructor; assumption|]. repeat split; try constructor. discriminate.
Qed.
