(** * Effects of the driver operations *)
From Verif Require Import Model.Base Model.State Model.Dec Model.Value Model.Encoder Model.Hdf5 Model.Runtime Model.Driver.
From Verif Require Import Spec.DriverSpec Proofs.BaseFacts Proofs.DiskFacts.
From Coq Require Import Lia.

Lemma bind_ok {S A B} (m : st S A) (k : A -> st S B) s b s' :
  bind m k s = (Ok b, s') <-> exists a s1, m s = (Ok a, s1) /\ k a s1 = (Ok b, s').
Proof.
  unfold bind. destruct (m s) as [[a|e] s1]; split.
  - eauto.
  - intros (a' & s2 & H & H2). injection H as <- <-. exact H2.
  - discriminate.
  - intros (a' & s2 & H & _). discriminate.
Qed.
Lemma bind_eq {S A B} (m : st S A) (k : A -> st S B) s :
  bind m k s = match m s with (Ok a, s') => k a s' | (Err e, s') => (Err e, s') end.
Proof. reflexivity. Qed.
Lemma set_reads_same v : set_reads (dv_reads v) v = v. Proof. destruct v; reflexivity. Qed.
(** A computation that only touches pending_reads *)
Definition reads_only {A} (m : st driver A) : Prop := forall v, exists x, snd (m v) = set_reads x v.
Lemma ro_ret {A} (a : A) : reads_only (ret a).
Proof. intros v. exists (dv_reads v). cbn. symmetry. apply set_reads_same. Qed.
Lemma ro_raise {A} e : reads_only (raise e : st driver A).
Proof. intros v. exists (dv_reads v). cbn. symmetry. apply set_reads_same. Qed.
Lemma ro_lift {A} (r : result A) : reads_only (lift r).
Proof. intros v. exists (dv_reads v). cbn. symmetry. apply set_reads_same. Qed.
Lemma ro_gets {A} (f : driver -> A) : reads_only (gets f).
Proof. intros v. exists (dv_reads v). cbn. symmetry. apply set_reads_same. Qed.
Lemma ro_bind {A B} (m : st driver A) (k : A -> st driver B) : reads_only m -> (forall a, reads_only (k a)) -> reads_only (bind m k).
Proof.
  intros Hm Hk v. unfold bind. destruct (Hm v) as (x & Hx). destruct (m v) as [[a|e] v1]; cbn [snd] in Hx; subst.
  - destruct (Hk a (set_reads x v)) as (y & Hy). exists y. rewrite Hy. destruct v; reflexivity.
  - exists x. reflexivity.
Qed.
Lemma ro_mapm {A B} (f : A -> st driver B) l : (forall a, reads_only (f a)) -> reads_only (mapm f l).
Proof.
  intros Hf. induction l as [|a l IH]; cbn [mapm]; [apply ro_ret|].
  apply ro_bind; [apply Hf|]. intros b. apply ro_bind; [exact IH|]. intros bs. apply ro_ret.
Qed.
Lemma ro_get k : reads_only (get k).
Proof.
  intros v. unfold get. destruct (find k v) as [x|e]; cbn [snd].
  - destruct (is_none (pget k (dv_reads v))); [eexists; reflexivity|]. exists (dv_reads v). symmetry. apply set_reads_same.
  - exists (dv_reads v). symmetry. apply set_reads_same.
Qed.
Lemma ro_items ord p : reads_only (items ord p).
Proof.
  unfold items. apply ro_bind; [apply ro_gets|]. intros v. apply ro_bind; [apply ro_lift|]. intros db.
  apply ro_bind; [|intros; apply ro_ret]. apply ro_mapm. intros k. apply ro_bind; [apply ro_get|]. intros x. apply ro_ret.
Qed.
Lemma get_result k v : fst (get k v) = find k v.
Proof. unfold get. destruct (find k v); reflexivity. Qed.
Lemma find_set_reads k x v : find k (set_reads x v) = find k v.
Proof. destruct v; reflexivity. Qed.

(** What a computation that only reads can record: values as they are found, for keys without a recorded value *)
Definition grown (v : driver) (x : dict pyval) : Prop :=
  forall k, dget k x = dget k (dv_reads v) \/ (is_none (pget k (dv_reads v)) = true /\ exists y, find k v = Ok y /\ dget k x = Some y).
Definition reads_grow {A} (m : st driver A) : Prop := forall v, grown v (dv_reads (snd (m v))).
Lemma grown_refl v : grown v (dv_reads v). Proof. intros k; left; reflexivity. Qed.
Lemma grown_trans v x y : grown v x -> grown (set_reads x v) y -> grown v y.
Proof.
  intros H1 H2 k. destruct (H2 k) as [E|(N & z & F & E)].
  - cbn [set_reads dv_reads] in E. rewrite E. apply H1.
  - cbn [set_reads dv_reads] in N. rewrite find_set_reads in F. right. split; [|exists z; auto].
    destruct (H1 k) as [E1|(N1 & _)]; [|exact N1]. unfold pget in *. rewrite E1 in N. exact N.
Qed.
Lemma rg_same {A} (m : st driver A) : (forall v, snd (m v) = v) -> reads_grow m.
Proof. intros H v. rewrite H. apply grown_refl. Qed.
Lemma rg_ret {A} (a : A) : reads_grow (ret a). Proof. apply rg_same. reflexivity. Qed.
Lemma rg_raise {A} e : reads_grow (raise e : st driver A). Proof. apply rg_same. reflexivity. Qed.
Lemma rg_lift {A} (r : result A) : reads_grow (lift r). Proof. apply rg_same. reflexivity. Qed.
Lemma rg_gets {A} (f : driver -> A) : reads_grow (gets f). Proof. apply rg_same. reflexivity. Qed.
Lemma rg_bind {A B} (m : st driver A) (k : A -> st driver B) : reads_only m -> reads_grow m -> (forall a, reads_grow (k a)) -> reads_grow (bind m k).
Proof.
  intros Ho Hm Hk v. rewrite bind_eq. specialize (Hm v). destruct (Ho v) as (x & Hx). destruct (m v) as [[a|e] v1]; cbn [snd] in *; [|exact Hm].
  subst v1. eapply grown_trans; [exact Hm|apply Hk].
Qed.
Lemma rg_mapm {A B} (f : A -> st driver B) l : (forall a, reads_only (f a)) -> (forall a, reads_grow (f a)) -> reads_grow (mapm f l).
Proof.
  intros Ho Hf. induction l as [|a l IH]; cbn [mapm]; [apply rg_ret|].
  apply rg_bind; [apply Ho|apply Hf|]. intros b. apply rg_bind; [apply ro_mapm, Ho|exact IH|]. intros bs. apply rg_ret.
Qed.
Lemma rg_get k : reads_grow (get k).
Proof.
  intros v j. unfold get. destruct (find k v) as [x|e] eqn:F; cbn [snd]; [|left; reflexivity].
  destruct (is_none (pget k (dv_reads v))) eqn:N; [|left; reflexivity]. cbn [set_reads dv_reads]. rewrite dget_dset.
  destruct (str_eqb_spec j k) as [->|H]; [right; split; [exact N|exists x; auto]|left; reflexivity].
Qed.
Lemma rg_items ord p : reads_grow (items ord p).
Proof.
  unfold items. apply rg_bind; [apply ro_gets|apply rg_gets|]. intros v. apply rg_bind; [apply ro_lift|apply rg_lift|]. intros db.
  assert (HO : forall a, reads_only (let! x := get a in ret (a, x))) by (intros a; apply ro_bind; [apply ro_get|intros x; apply ro_ret]).
  assert (HG : forall a, reads_grow (let! x := get a in ret (a, x))) by (intros a; apply rg_bind; [apply ro_get|apply rg_get|intros x; apply rg_ret]).
  apply rg_bind; [apply ro_mapm; exact HO|apply rg_mapm; [exact HO|exact HG]|intros; apply rg_ret].
Qed.

(** [set] *)
Lemma set_body_spec k x b v :
  (exists y r t, coerce x = Ok y /\ set_body k x b v = (Ok tt, set_txn t (set_writes (dset k y (dv_writes v)) (set_reads r v))) /\
      t = (if b then dset k y (dv_txn v) else dv_txn v)) \/
  (exists e r, set_body k x b v = (Err e, set_reads r v)).
Proof.
  assert (HG : exists r, (if is_none (pget k (dv_reads v)) then (get k;; ret tt) else ret tt) v = (Ok tt, set_reads r v) \/
               exists e, (if is_none (pget k (dv_reads v)) then (get k;; ret tt) else ret tt) v = (Err e, set_reads r v)).
  { destruct (is_none (pget k (dv_reads v))).
    - destruct (ro_get k v) as (r & Hr). exists r. unfold bind. destruct (get k v) as [[y|e] v1]; cbn [snd] in Hr; subst; [left; reflexivity|right; eauto].
    - exists (dv_reads v). left. rewrite set_reads_same. reflexivity. }
  remember (set_body k x b v) as R eqn:ER. unfold set_body in ER. rewrite bind_eq in ER. cbn [gets] in ER.
  destruct HG as (r & [HG|(e & HG)]); rewrite bind_eq, HG in ER; [|right; exists e, r; exact ER].
  rewrite bind_eq in ER. cbn [lift] in ER. destruct (coerce x) as [y|e]; [|right; exists e, r; exact ER].
  left. exists y, r, (if b then dset k y (dv_txn v) else dv_txn v). split; [reflexivity|]. split; [|reflexivity].
  rewrite ER. unfold bind, modify, ret. destruct b; destruct v; reflexivity.
Qed.
Lemma set_spec k x b w :
  (exists y r t, coerce x = Ok y /\ (forall e, encode x <> Err e) /\ set k x b w = (Ok tt, snd (set k x b w)) /\
      w_drv (snd (set k x b w)) = set_txn t (set_writes (dset k y (dv_writes (w_drv w))) (set_reads r (w_drv w))) /\
      t = (if b then dset k y (dv_txn (w_drv w)) else dv_txn (w_drv w))) \/
  (exists e r, fst (set k x b w) = Err e /\ w_drv (snd (set k x b w)) = set_reads r (w_drv w)).
Proof.
  remember (set k x b w) as R eqn:ER. unfold set in ER. rewrite bind_eq in ER. cbn [lift] in ER.
  destruct (encode_kv_len k x) as [[kl vl]|e] eqn:EK.
  2:{ right. exists e, (dv_reads (w_drv w)). subst R. cbn. split; [reflexivity|]. symmetry. apply set_reads_same. }
  assert (HE : forall e, encode x <> Err e).
  { intros e He. unfold encode_kv_len in EK. destruct (utf8_len k); [|discriminate]. cbn [bindr] in EK. rewrite He in EK. discriminate. }
  rewrite bind_eq in ER. unfold on_rt in ER. destruct (deduct_write kl vl (w_rt w)) as [[[]|e] r1] eqn:ED.
  2:{ right. exists e, (dv_reads (w_drv w)). subst R. cbn. split; [reflexivity|]. symmetry. apply set_reads_same. }
  unfold on_drv in ER. cbn [w_drv w_rt] in ER.
  destruct (set_body_spec k x b (w_drv w)) as [(y & r & t & Hc & HB & Ht)|(e & r & HB)]; rewrite HB in ER; subst R; cbn [fst snd w_drv].
  - left. exists y, r, t. auto.
  - right. exists e, r. auto.
Qed.

(** Frame: operations that do not commit leave disk, deltas and bypass alone *)
Definition frame (v v' : driver) : Prop :=
  dv_disk v' = dv_disk v /\ dv_bypass v' = dv_bypass v /\ dv_deltas v' = dv_deltas v.
Lemma frame_refl v : frame v v. Proof. repeat split. Qed.
Lemma frame_trans a b c : frame a b -> frame b c -> frame a c.
Proof. unfold frame. intuition congruence. Qed.
Lemma set_frame k x b w : frame (w_drv w) (w_drv (snd (set k x b w))).
Proof.
  destruct (set_spec k x b w) as [(y & r & t & _ & _ & _ & H & _)|(e & r & _ & H)]; rewrite H; destruct (w_drv w); repeat split.
Qed.
Lemma ro_frame {A} (m : st driver A) w : reads_only m -> frame (w_drv w) (w_drv (snd (on_drv m w))).
Proof.
  intros H. unfold on_drv. destruct (H (w_drv w)) as (x & Hx). destruct (m (w_drv w)) as [r v]. cbn in *. subst. destruct (w_drv w); repeat split.
Qed.
Lemma run_op_frame o w : frame (w_drv w) (w_drv (run_op o w)).
Proof.
  destruct o as [k|k v b|k|ord p|p]; cbn [run_op].
  - apply ro_frame, ro_get.
  - apply set_frame.
  - apply set_frame.
  - apply ro_frame, ro_items.
  - destruct w as [v r]; destruct v; repeat split.
Qed.
Lemma run_ops_frame l w : frame (w_drv w) (w_drv (run_ops l w)).
Proof.
  unfold run_ops. revert w. induction l as [|o l IH]; intros w; cbn [fold_left]; [apply frame_refl|].
  eapply frame_trans; [apply run_op_frame|apply IH].
Qed.
(** pending writes of a key nobody writes *)
Lemma run_op_writes k o w : writes_key k o = false -> dget k (dv_writes (w_drv (run_op o w))) = dget k (dv_writes (w_drv w)).
Proof.
  intros H. assert (HS : forall k' x b, str_eqb k k' = false -> dget k (dv_writes (w_drv (snd (set k' x b w)))) = dget k (dv_writes (w_drv w))).
  { intros k' x b Hn. destruct (set_spec k' x b w) as [(y & r & t & _ & _ & _ & HD & _)|(e & r & _ & HD)]; rewrite HD; destruct (w_drv w); cbn.
    - rewrite dget_dset, Hn. reflexivity.
    - reflexivity. }
  assert (HR : forall A (m : st driver A), reads_only m -> dv_writes (w_drv (snd (on_drv m w))) = dv_writes (w_drv w)).
  { intros A m Hm. unfold on_drv. destruct (Hm (w_drv w)) as (x & Hx). destruct (m (w_drv w)) as [r v]. cbn in *. subst. destruct (w_drv w); reflexivity. }
  destruct o as [k'|k' v b|k'|ord p|p]; cbn [run_op writes_key] in *.
  - rewrite HR by apply ro_get. reflexivity.
  - apply HS, H.
  - apply HS, H.
  - rewrite HR by apply ro_items. reflexivity.
  - destruct w as [v r]; destruct v; reflexivity.
Qed.
Lemma run_ops_writes k l w : forallb (fun o => negb (writes_key k o)) l = true ->
  dget k (dv_writes (w_drv (run_ops l w))) = dget k (dv_writes (w_drv w)).
Proof.
  unfold run_ops. revert w. induction l as [|o l IH]; intros w H; cbn [fold_left forallb] in *; [reflexivity|].
  apply andb_true_iff in H as [H1 H2]. rewrite IH by exact H2. apply run_op_writes. apply negb_true_iff, H1.
Qed.

(** find, written out *)
Lemma find_pending k v x : dv_bypass v = false -> dget k (dv_writes v) = Some x -> x <> VNone -> find k v = Ok x.
Proof. intros Hb Hx Hn. unfold find, pget. rewrite Hb, Hx. destruct x; try reflexivity. congruence. Qed.
Lemma coerce_not_none x y : coerce x = Ok y -> x <> VNone -> y <> VNone.
Proof.
  intros H Hn. destruct x; cbn [coerce] in H; try (injection H as <-; congruence).
  - destruct (cd_of_str repr); [|discriminate]. injection H as <-. discriminate.
  - destruct (cd_of_str (str_of_dec d)); [|discriminate]. injection H as <-. discriminate.
Qed.

(** ** Dictionaries: bulk update *)
Lemma dget_dupdate {V} k (d e : dict V) : NoDup (dkeys e) -> dget k (dupdate d e) = match dget k e with Some v => Some v | None => dget k d end.
Proof.
  unfold dupdate. revert d. induction e as [|[k' x] e IH]; intros d Hd; cbn [fold_left fst snd dget]; [reflexivity|].
  inversion Hd as [|? ? Hn Hd']; subst. rewrite IH by exact Hd'. rewrite dget_dset.
  destruct (str_eqb_spec k k') as [->|H]; [|reflexivity]. apply dget_None in Hn. unfold dkeys in Hn. rewrite Hn. reflexivity.
Qed.
Lemma NoDup_dupdate {V} (d e : dict V) : NoDup (dkeys d) -> NoDup (dkeys (dupdate d e)).
Proof.
  unfold dupdate. revert d. induction e as [|[k x] e IH]; intros d Hd; cbn [fold_left]; [exact Hd|]. apply IH, NoDup_dset, Hd.
Qed.
Lemma dset_append {V} k (v : V) d : ~ In k (dkeys d) -> dset k v d = d ++ [(k, v)].
Proof.
  induction d as [|[k' v'] d IH]; cbn [dset app dkeys map In]; [reflexivity|]. intros H.
  destruct (str_eqb_spec k k') as [->|]; [exfalso; apply H; left; reflexivity|]. f_equal. apply IH. intros Hi; apply H; right; exact Hi.
Qed.
Lemma dupdate_nil {V} (e : dict V) : NoDup (dkeys e) -> dupdate [] e = e.
Proof.
  intros H. assert (G : forall d, NoDup (dkeys (d ++ e)) -> dupdate d e = d ++ e).
  { clear H. induction e as [|[k x] e IH]; intros d Hd; cbn [dupdate fold_left]; [symmetry; apply app_nil_r|].
    cbn [fst snd]. rewrite dset_append.
    - change (fold_left _ e (d ++ [(k, x)])) with (dupdate (d ++ [(k, x)]) e). rewrite IH.
      + rewrite <- app_assoc. reflexivity.
      + rewrite <- app_assoc. exact Hd.
    - unfold dkeys in Hd. rewrite map_app in Hd. cbn in Hd. apply NoDup_remove_2 in Hd. intros Hi. apply Hd. apply in_or_app. left. exact Hi. }
  apply (G []). exact H.
Qed.

(** ** hard_apply *)
Definition delta_of (reads : dict pyval) (kv : pystr * pyval) : pystr * (option pyval * pyval) := (fst kv, (dget (fst kv) reads, snd kv)).
Lemma deltas_map reads (l : dict pyval) : NoDup (dkeys l) ->
  fold_left (fun acc kv => dset (fst kv) (dget (fst kv) reads, snd kv) acc) l [] = map (delta_of reads) l.
Proof.
  intros H.
  assert (E : forall acc, fold_left (fun acc kv => dset (fst kv) (dget (fst kv) reads, snd kv) acc) l acc = dupdate acc (map (delta_of reads) l)).
  { clear H. unfold dupdate. induction l as [|kv l IH]; intros acc; cbn [fold_left map]; [reflexivity|]. rewrite IH. reflexivity. }
  rewrite E. apply dupdate_nil. unfold dkeys in *. rewrite map_map. exact H.
Qed.
Lemma apply_one_inv n k o x d y d' : apply_one n (k, (o, x)) d = (y, d') ->
  (y = Ok tt /\ key_writable k /\ (forall e, encode x <> Err e) /\
     forall q, dattrs d' q = if place_eqb q (place_of k) then mkAttrs (new_value x) (Some n) else dattrs d q) \/
  (y <> Ok tt /\ forall q, dattrs d' q = dattrs d q).
Proof.
  unfold apply_one, key_writable, key_ok, place_of. cbn [fst snd]. destruct (parse_key k) as [fn g]. cbn [fst snd]. intros H.
  destruct (svtd_inv _ _ _ _ _ _ _ H) as [(-> & Hn & Hg & HE & HD)|(Hx & HD)]; [left|right; auto]. auto 8.
Qed.
Lemma apply_one_ok n k o x d : key_writable k -> (forall e, encode x <> Err e) -> exists d', apply_one n (k, (o, x)) d = (Ok tt, d').
Proof.
  intros Hk HE. destruct (apply_one n (k, (o, x)) d) as [y d'] eqn:E. exists d'. f_equal.
  unfold apply_one, key_writable, key_ok in *. cbn [fst snd] in *. destruct (parse_key k) as [fn g]. cbn [fst snd] in *. destruct Hk as [Hg Hn].
  unfold set_value_to_disk, bind, lift in E. destruct (encode x) as [t|e] eqn:EE; [|exfalso; apply (HE e); reflexivity].
  assert (exists z, (match x with VNone => Ok None | _ => mapr Some (Ok t) end) = Ok z) as (z & Hz) by (destruct x; eexists; reflexivity).
  rewrite Hz in E. destruct (h5_set_ok fn g z (Some n) d Hn Hg) as (d2 & E2 & _). rewrite E2 in E. injection E as <- _. reflexivity.
Qed.
Lemma apply_all_attrs n reads l d d' : foreach (apply_one n) (map (delta_of reads) l) d = (Ok tt, d') ->
  Forall (fun kv => key_writable (fst kv) /\ forall e, encode (snd kv) <> Err e) l /\
  forall q, dattrs d' q = match last_value q l with Some x => mkAttrs (new_value x) (Some n) | None => dattrs d q end.
Proof.
  revert d. induction l as [|[k x] l IH]; intros d; cbn [map foreach]; intros H.
  - injection H as <-. split; [constructor|reflexivity].
  - rewrite bind_eq in H. destruct (apply_one n (delta_of reads (k, x)) d) as [[[]|e] d1] eqn:E; [|discriminate].
    unfold delta_of in E. cbn [fst snd] in E. destruct (apply_one_inv _ _ _ _ _ _ _ E) as [(_ & H1 & H2 & HD)|(Hn & _)]; [|congruence].
    destruct (IH d1 H) as [HF HQ]. split; [constructor; [split; assumption|exact HF]|].
    intros q. rewrite HQ. cbn [last_value]. destruct (last_value q l); [reflexivity|]. rewrite HD. destruct (place_eqb q (place_of k)); reflexivity.
Qed.
Lemma apply_all_ok n reads l d : Forall (fun kv => key_writable (fst kv) /\ forall e, encode (snd kv) <> Err e) l ->
  exists d', foreach (apply_one n) (map (delta_of reads) l) d = (Ok tt, d').
Proof.
  revert d. induction l as [|[k x] l IH]; intros d H; cbn [map foreach]; [eexists; reflexivity|].
  inversion H as [|? ? [H1 H2] H3]; subst. destruct (apply_one_ok n k (dget k reads) x d H1 H2) as (d1 & E). rewrite bind_eq.
  unfold delta_of at 1. cbn [fst snd]. rewrite E. apply IH, H3.
Qed.
Lemma hard_apply_eq n v : NoDup (dkeys (dv_writes v)) -> dv_deltas v = [] ->
  hard_apply n v =
  let v1 := set_writes [] (set_reads [] (set_cache (dupdate (dv_cache v) (dv_writes v)) v)) in
  match foreach (apply_one n) (map (delta_of (dv_reads v)) (dv_writes v)) (dv_disk v) with
  | (Ok _, d') => (Ok tt, set_disk d' v1)
  | (Err e, d') => (Err e, set_disk d' (set_deltas [(n, map (delta_of (dv_reads v)) (dv_writes v))] v1))
  end.
Proof.
  intros Hd Hl. unfold hard_apply. rewrite bind_eq. cbn [modify]. rewrite deltas_map by exact Hd. rewrite Hl. cbn [zset].
  rewrite bind_eq. cbn [gets]. rewrite bind_eq. unfold on_disk.
  set (L := map (delta_of (dv_reads v)) (dv_writes v)).
  replace (dv_disk (set_writes [] _)) with (dv_disk v) by (destruct v; reflexivity).
  replace (dv_deltas (set_writes [] _)) with [(n, L)] by (destruct v; reflexivity).
  unfold zsort. cbn [fold_right zinsert upto fst]. rewrite Z.eqb_refl. cbn [foreach snd].
  rewrite bind_eq. destruct (foreach (apply_one n) L (dv_disk v)) as [[[]|e] d'].
  - cbn [ret]. unfold modify. f_equal. destruct v; cbn in *. subst. unfold set_writes, set_reads, set_cache, set_deltas, set_disk. cbn.
    rewrite Z.eqb_refl. reflexivity.
  - destruct v; reflexivity.
Qed.
