(** * C01-C08, C12: the Driver *)
From Verif Require Import Model.Base Model.State Model.Dec Model.Value Model.Encoder Model.Hdf5 Model.Runtime Model.Driver.
From Verif Require Import Spec.DecSpec Spec.EncSpec Spec.DriverSpec Spec.ReachSpec.
From Verif Require Import Proofs.BaseFacts Proofs.DiskFacts Proofs.DriverFacts Proofs.EncFacts Proofs.ReachFacts.
From Coq Require Import Lia.

(** A world to test with *)
Definition rt0 : runtime := mkRt tracer0 0 (mkCtx [] base0) [] [] None.
Definition kA := u "con_a.v".
Definition kB := u "con_b.h:x:y".
Definition d0 : disk := snd (commit_all [(kA, VInt 1); (kB, VStr (u "old"))] []).
Definition w0 : world := mkW (driver0 false d0) rt0.

(** ** C01 *)
(** After a successful set(k, x), x not None, and any sequence of gets, listings, sets and deletes of
    other keys and cache expiries, get(k) returns x; a float or raw Decimal as ContractingDecimal(str(x)). *)
Theorem C01_read_your_writes k x b w w1 l :
  dv_bypass (w_drv w) = false -> x <> VNone -> set k x b w = (Ok tt, w1) ->
  forallb (fun o => negb (writes_key k o)) l = true ->
  fst (get k (w_drv (run_ops l w1))) =
    match x with
    | VFloat r => do d <- cd_of_str r; Ok (VDec d)
    | VDecimal d => do d <- cd_of_str (str_of_dec d); Ok (VDec d)
    | _ => Ok x
    end.
Proof.
  intros Hb Hx HS HL. rewrite get_result.
  destruct (set_spec k x b w) as [(y & r & t & Hc & _ & _ & H & _)|(e & r & H & _)]; rewrite HS in H; [|discriminate].
  cbn [snd] in H.
  rewrite (find_pending k (w_drv (run_ops l w1)) y).
  - unfold coerce in Hc. symmetry. destruct x; exact Hc.
  - destruct (run_ops_frame l w1) as (_ & -> & _). rewrite H. destruct (w_drv w); exact Hb.
  - rewrite run_ops_writes by exact HL. rewrite H. destruct (w_drv w); cbn. apply dget_dset_same.
  - exact (coerce_not_none x y Hc Hx).
Qed.
Example C01_example : let w1 := snd (set kA (VFloat (u "1.5")) true w0) in
  set kA (VFloat (u "1.5")) true w0 = (Ok tt, w1) /\
  fst (get kA (w_drv (run_ops [OGet kA; OSet kB VNone false; ODelete (u "con_a.w"); OExpire (fun _ => true)] w1))) = Ok (VDec (mkfd false 15 (-1))).
Proof. cbv zeta. split; vm_compute; reflexivity. Qed.
(** The order of lookup: pending, cached, durable. *)
Theorem C01_lookup_order k v :
  dv_bypass v = false ->
  (forall x, dget k (dv_writes v) = Some x -> x <> VNone -> fst (get k v) = Ok x) /\
  (forall x, (forall y, dget k (dv_writes v) = Some y -> y = VNone) -> dget k (dv_cache v) = Some x -> x <> VNone -> fst (get k v) = Ok x) /\
  ((forall y, dget k (dv_writes v) = Some y -> y = VNone) -> (forall y, dget k (dv_cache v) = Some y -> y = VNone) ->
   fst (get k v) = fresh_read (dv_disk v) k).
Proof.
  intros Hb. rewrite get_result, fresh_read_value. unfold find, pget. rewrite Hb. repeat split.
  - intros x -> Hx. destruct x; try reflexivity. congruence.
  - intros x HW -> Hx. destruct (dget k (dv_writes v)) as [y|]; [rewrite (HW y eq_refl)|]; cbn [is_none negb]; destruct x; try reflexivity; congruence.
  - intros HW HC. destruct (dget k (dv_writes v)) as [y|]; [rewrite (HW y eq_refl)|]; cbn [is_none negb];
      (destruct (dget k (dv_cache v)) as [z|]; [rewrite (HC z eq_refl)|]; reflexivity).
Qed.
(** A driver created with bypass_cache=True does not read its own writes. *)
Theorem C01_bypass_refuted :
  exists w w1 k, dv_bypass (w_drv w) = true /\ set k (VInt 2) true w = (Ok tt, w1) /\ fst (get k (w_drv w1)) = Ok (VInt 1).
Proof.
  exists (mkW (driver0 true d0) rt0), (snd (set kA (VInt 2) true (mkW (driver0 true d0) rt0))), kA.
  split; [reflexivity|]. split; vm_compute; reflexivity.
Qed.

(** ** C02 *)
(** A delete hides nothing: the next get returns the cached or durable value. *)
Theorem C02_delete_invisible_refuted k w w1 :
  dv_bypass (w_drv w) = false -> delete k w = (Ok tt, w1) ->
  fst (get k (w_drv w1)) = match dget k (dv_cache (w_drv w)) with
                           | Some VNone | None => fresh_read (dv_disk (w_drv w)) k
                           | Some x => Ok x
                           end.
Proof.
  intros Hb HS. unfold delete in HS. rewrite get_result, fresh_read_value.
  destruct (set_spec k VNone false w) as [(y & r & t & Hc & _ & _ & H & _)|(e & r & H & _)]; rewrite HS in H; [|discriminate].
  cbn [snd] in H. injection Hc as <-. rewrite H. unfold find, pget.
  destruct (w_drv w) as [dl wr rd tx ev ca by_ di]. cbn in *. subst. rewrite dget_dset_same. cbn [is_none negb].
  destruct (dget k ca) as [[]|]; reflexivity.
Qed.
Theorem C02_refuted : exists w w1 k, delete k w = (Ok tt, w1) /\ fst (get k (w_drv w1)) = Ok (VInt 1).
Proof. exists w0, (snd (delete kA w0)), kA. split; vm_compute; reflexivity. Qed.
(** True part: if the value was only pending the delete is visible; and once committed it always is. *)
Theorem C02_pending_only_partial k w w1 :
  dv_bypass (w_drv w) = false -> dget k (dv_cache (w_drv w)) = None -> fresh_read (dv_disk (w_drv w)) k = Ok VNone ->
  delete k w = (Ok tt, w1) -> fst (get k (w_drv w1)) = Ok VNone.
Proof. intros Hb HC HD HS. rewrite (C02_delete_invisible_refuted k w w1 Hb HS), HC. exact HD. Qed.

(** ** C03 *)
(** After commit() a new Driver reads, for every key, the stored form of the last pending write to
    the key's place, else what it read before. *)
Theorem C03_commit_durable v v' :
  commit v = (Ok tt, v') ->
  (forall k, key_ok k ->
     fresh_read (dv_disk v') k = match last_write k (dv_writes v) with Some x => stored_form x | None => fresh_read (dv_disk v) k end) /\
  dv_writes v' = [] /\
  (dv_bypass v = false -> forall k, fst (get k v') = fresh_read (dv_disk v') k).
Proof.
  intros H. apply commit_inv in H as (d' & HC & ->). split.
  - intros k Hk. destruct v; cbn in *. eapply commit_all_reads; eassumption.
  - split; [destruct v; reflexivity|]. intros Hb k. rewrite get_result, fresh_read_value. destruct v; cbn in *. subst. reflexivity.
Qed.
(** For a pending key that shares its place with no other pending key: exactly its own value; for a
    key at no pending key's place: no change. *)
Theorem C03_separate_keys v v' k :
  NoDup (dkeys (dv_writes v)) -> commit v = (Ok tt, v') -> key_ok k ->
  (forall k', In k' (dkeys (dv_writes v)) -> same_place k k' = true -> k' = k) ->
  fresh_read (dv_disk v') k = match dget k (dv_writes v) with Some x => stored_form x | None => fresh_read (dv_disk v) k end.
Proof.
  intros Hd H Hk HS. destruct (C03_commit_durable v v' H) as (H1 & _). rewrite H1 by exact Hk. rewrite last_write_value.
  rewrite (last_value_sep (fun k' => In k' (dkeys (dv_writes v)))); [reflexivity| |exact Hd|].
  - intros k' Hi E. symmetry. apply HS; [exact Hi|]. rewrite same_place_eqb. destruct (place_eqb_spec (place_of k) (place_of k')); congruence.
  - apply Forall_forall. intros kv Hi. apply in_map, Hi.
Qed.
(** When commit() succeeds *)
Theorem C03_commit_succeeds v :
  (exists v', commit v = (Ok tt, v')) <->
  (forall k x, In (k, x) (dv_writes v) -> key_writable k /\ exists t, encode x = Ok t).
Proof.
  split.
  - intros (v' & H) k x Hi. apply commit_inv in H as (d' & HC & _). apply commit_all_inv in HC. rewrite Forall_forall in HC.
    destruct (HC _ Hi) as [H1 H2]. split; [exact H1|]. cbn [snd] in H2. destruct (encode x) as [t|e]; [eauto|]. exfalso. apply (H2 e); reflexivity.
  - intros H. destruct (commit_all_ok (dv_writes v) (dv_disk v)) as (d' & HC).
    { apply Forall_forall. intros [k x] Hi. destruct (H k x Hi) as [H1 (t & H2)]. split; [exact H1|]. cbn [snd]. intros e. rewrite H2. discriminate. }
    unfold commit. rewrite bind_eq. cbn [gets]. rewrite bind_eq. unfold on_disk. rewrite HC. eexists. reflexivity.
Qed.
Definition v03 : driver := w_drv (run_ops [OSet kA (VInt 5) true; ODelete kB; OSet (u "con_c.v") (VBytes [255%N]) false] w0).
Example C03_example :
  exists v', commit v03 = (Ok tt, v') /\ NoDup (dkeys (dv_writes v03)) /\
    fresh_read (dv_disk v') kA = Ok (VInt 5) /\ fresh_read (dv_disk v') kB = Ok VNone /\ fresh_read (dv_disk v') (u "con_c.v") = Ok (VBytes [255%N]).
Proof.
  exists (snd (commit v03)). split; [vm_compute; reflexivity|]. split.
  - vm_compute. repeat constructor; cbn [In]; intuition discriminate.
  - repeat split; vm_compute; reflexivity.
Qed.

(** ** C04 *)
Theorem C04_rollback l w w1 v' :
  w1 = run_ops l w -> rollback None (w_drv w1) = (Ok tt, v') ->
  dv_disk v' = dv_disk (w_drv w) /\ (forall k, fst (get k v') = fresh_read (dv_disk (w_drv w)) k) /\ dv_writes v' = [].
Proof.
  intros -> H. rewrite rollback_none in H. injection H as <-. destruct (run_ops_frame l w) as (HD & HB & _).
  set (v := w_drv (run_ops l w)) in *. split; [destruct v; exact HD|]. split; [|destruct v; reflexivity].
  intros k. rewrite get_result, fresh_read_value, <- HD. destruct v as [dl wr rd tx ev ca by_ di]. cbn. unfold find. cbn. destruct by_; reflexivity.
Qed.
Example C04_example : let w1 := run_ops [OSet kA (VInt 5) true; ODelete kB; OSet (u "con_c.v") (VInt 3) false] w0 in
  fst (get kA (w_drv w1)) = Ok (VInt 5) /\ fst (get kA (snd (rollback None (w_drv w1)))) = Ok (VInt 1).
Proof. cbv zeta. split; vm_compute; reflexivity. Qed.

(** ** C05 *)
(** In every history rollback(nanos) changes nothing at all. *)
Theorem C05_rollback_to_time_refuted U good w n :
  history U good w -> rollback (Some n) (w_drv w) = (Ok tt, w_drv w).
Proof. intros H. apply rollback_some. apply (history_shape _ _ _ H). Qed.
Definition v05a : driver := w_drv (snd (set kA (VInt 5) true w0)).
Definition v05b : driver := snd (hard_apply 10 v05a).
Definition v05c : driver := snd (hard_apply 20 (w_drv (snd (set kA (VInt 6) true (mkW v05b rt0))))).
Theorem C05_refuted : exists v1 v2 v3,
  hard_apply 10 v05a = (Ok tt, v1) /\
  hard_apply 20 (w_drv (snd (set kA (VInt 6) true (mkW v1 rt0)))) = (Ok tt, v2) /\
  rollback (Some 15%Z) v2 = (Ok tt, v3) /\ fst (get kA v3) = Ok (VInt 6).
Proof.
  exists v05b, v05c, (snd (rollback (Some 15%Z) v05c)).
  split; [vm_compute; reflexivity|]. split; [vm_compute; reflexivity|]. split; vm_compute; reflexivity.
Qed.

(** ** C06 *)
Theorem C06_hard_apply U good w n v' :
  history U good w -> hard_apply n (w_drv w) = (Ok tt, v') ->
  let v := w_drv w in
  (forall k, key_ok k ->
     fresh_read (dv_disk v') k = match last_write k (dv_writes v) with Some x => stored_form x | None => fresh_read (dv_disk v) k end /\
     stored_block (dv_disk v') k = match last_write k (dv_writes v) with Some _ => Ok (Some n) | None => stored_block (dv_disk v) k end) /\
  dv_writes v' = [].
Proof.
  intros HH HA v. pose proof (history_shape _ _ _ HH) as HS. apply hard_apply_inv in HA; [|exact HS].
  destruct HA as (d' & HA & ->). apply apply_all_attrs in HA as [HF HA]. split; [|destruct (w_drv w); reflexivity].
  intros k Hk. change (dv_disk (set_disk d' _)) with d'. rewrite !fresh_read_attrs, !stored_block_attrs by exact Hk.
  rewrite HA, last_write_value. fold v. fold v in HF. destruct (last_value (place_of k) (dv_writes v)) as [x|] eqn:E; [|split; reflexivity].
  cbn [at_value at_block]. split; [|reflexivity]. apply decode_new_value. rewrite Forall_forall in HF.
  destruct (last_value_In _ _ _ E) as (k' & Hi & _). apply (HF _ Hi).
Qed.
Theorem C06_hard_apply_succeeds U good w n :
  history U good w -> (forall k x, In (k, x) (dv_writes (w_drv w)) -> key_writable k /\ exists t, encode x = Ok t) ->
  exists v', hard_apply n (w_drv w) = (Ok tt, v').
Proof.
  intros HH H. pose proof (history_shape _ _ _ HH) as (H1 & _ & H3 & _). rewrite hard_apply_eq by assumption. cbv zeta.
  destruct (apply_all_ok n (dv_reads (w_drv w)) (dv_writes (w_drv w)) (dv_disk (w_drv w))) as (d' & E).
  { apply Forall_forall. intros [k x] Hi. destruct (H k x Hi) as [H4 (t & H2)]. split; [exact H4|]. cbn [snd]. intros e. rewrite H2. discriminate. }
  rewrite E. eexists. reflexivity.
Qed.
Definition v06 : driver := w_drv (run_ops [OSet kA (VInt 5) true; ODelete kB] w0).
Example C06_example : exists v', hard_apply 7 v06 = (Ok tt, v') /\
  fresh_read (dv_disk v') kA = Ok (VInt 5) /\ fresh_read (dv_disk v') kB = Ok VNone /\
  stored_block (dv_disk v') kB = Ok (Some 7%Z) /\ stored_block d0 kB = Ok (Some (-1)%Z).
Proof. exists (snd (hard_apply 7 v06)). split; [vm_compute; reflexivity|]. repeat split; vm_compute; reflexivity. Qed.

(** ** C07 *)
Theorem C07_crash v v' n :
  NoDup (dkeys (dv_writes v)) -> commit v = (Ok tt, v') ->
  (* nothing is invented *)
  (forall k, key_ok k -> fresh_read (crashed n v) k = fresh_read (dv_disk v) k \/
     exists k' x, In (k', x) (firstn n (dv_writes v)) /\ same_place k k' = true /\ fresh_read (crashed n v) k = stored_form x) /\
  (* old or new, for keys that do not share their place *)
  (forall k, key_ok k -> (forall k', In k' (dkeys (dv_writes v)) -> same_place k k' = true -> k' = k) ->
     fresh_read (crashed n v) k = fresh_read (dv_disk v) k \/ fresh_read (crashed n v) k = fresh_read (dv_disk v') k) /\
  (* committing the same writes again completes the job *)
  exists v2, commit (set_disk (crashed n v) v) = (Ok tt, v2) /\ forall k, key_ok k -> fresh_read (dv_disk v2) k = fresh_read (dv_disk v') k.
Proof.
  intros Hd H. pose proof (C03_separate_keys v v') as HSep. pose proof H as HC. apply commit_inv in H as (d' & HA & ->).
  pose proof (commit_all_inv _ _ _ HA) as HI.
  assert (HN : exists dn, commit_all (firstn n (dv_writes v)) (dv_disk v) = (Ok tt, dn)).
  { apply commit_all_ok. rewrite Forall_forall in *. intros kv Hi. apply HI. rewrite <- (firstn_skipn n). apply in_or_app. left. exact Hi. }
  destruct HN as (dn & HN). assert (EC : crashed n v = dn) by (unfold crashed; rewrite HN; reflexivity). rewrite EC.
  assert (HR : forall k, key_ok k -> fresh_read dn k = fresh_read (dv_disk v) k \/
     exists k' x, In (k', x) (firstn n (dv_writes v)) /\ same_place k k' = true /\ fresh_read dn k = stored_form x).
  { intros k Hk. rewrite (commit_all_reads _ _ _ k HN Hk). destruct (last_write k (firstn n (dv_writes v))) as [x|] eqn:E; [right|left; reflexivity].
    rewrite last_write_value in E. destruct (last_value_In _ _ _ E) as (k' & Hi & Hp). exists k', x. split; [exact Hi|]. split; [|reflexivity].
    rewrite same_place_eqb, Hp. destruct (place_eqb_spec (place_of k) (place_of k)); congruence. }
  split; [exact HR|]. split.
  - intros k Hk HS. destruct (HR k Hk) as [|(k' & x & Hi & Hp & E)]; [left; assumption|]. right.
    assert (Hi2 : In (k', x) (dv_writes v)) by (rewrite <- (firstn_skipn n (dv_writes v)); apply in_or_app; left; exact Hi).
    assert (k' = k) as -> by (apply HS; [exact (in_map fst _ _ Hi2)|exact Hp]).
    rewrite (HSep k Hd HC Hk HS), (In_dget k x _ Hd Hi2). exact E.
  - destruct (commit_all_ok (dv_writes v) dn HI) as (d2 & H2).
    assert (H3 : commit_all (firstn n (dv_writes v) ++ dv_writes v) (dv_disk v) = (Ok tt, d2)) by (rewrite commit_all_app, HN; exact H2).
    exists (set_reads [] (set_writes [] (set_cache [] (set_disk d2 v)))). split.
    + unfold commit. rewrite bind_eq. cbn [gets]. rewrite bind_eq. unfold on_disk.
      replace (dv_writes (set_disk dn v)) with (dv_writes v) by (destruct v; reflexivity).
      replace (dv_disk (set_disk dn v)) with dn by (destruct v; reflexivity). rewrite H2. cbn [modify]. unfold modify. destruct v; reflexivity.
    + intros k Hk. change (fresh_read d2 k = fresh_read d' k). rewrite (commit_all_reads _ _ _ k H3 Hk), (commit_all_reads _ _ _ k HA Hk).
      rewrite !last_write_value.
      assert (HL : forall q l1 l2, last_value q (l1 ++ l2) = match last_value q l2 with Some x => Some x | None => last_value q l1 end).
      { clear. intros q l1 l2. induction l1 as [|[k x] l1 IH]; cbn [app last_value]; [destruct (last_value q l2); reflexivity|].
        rewrite IH. destruct (last_value q l2); reflexivity. }
      rewrite HL. destruct (last_value (place_of k) (dv_writes v)) as [x|] eqn:E; [reflexivity|].
      rewrite <- (firstn_skipn n (dv_writes v)), HL in E. destruct (last_value (place_of k) (skipn n (dv_writes v))); [discriminate|]. rewrite E. reflexivity.
Qed.
Example C07_example :
  (exists v', commit v06 = (Ok tt, v')) /\ fresh_read (crashed 1 v06) kA = Ok (VInt 5) /\ fresh_read (crashed 1 v06) kB = Ok (VStr (u "old")).
Proof. split; [exists (snd (commit v06)); vm_compute; reflexivity|]. split; vm_compute; reflexivity. Qed.

(** ** C08 *)
Theorem C08_refuted : exists v v' n, commit v = (Ok tt, v') /\
  (exists k, fresh_read (crashed n v) k <> fresh_read (dv_disk v) k) /\ (exists k, fresh_read (crashed n v) k <> fresh_read (dv_disk v') k).
Proof.
  exists v06, (snd (commit v06)), 1.
  split; [vm_compute; reflexivity|]. split; [exists kA|exists kB]; vm_compute; discriminate.
Qed.
(** The same without a crash: a key whose file cannot be created makes commit() raise half-way. *)
Definition v08 : driver := w_drv (run_ops [OSet kA (VInt 5) true; OSet (u "con_a/b.v") (VInt 1) true; ODelete kB] w0).
Theorem C08_raises_halfway_refuted : exists v v', commit v = (Err EOS, v') /\
  fresh_read (dv_disk v') kA = Ok (VInt 5) /\ fresh_read (dv_disk v') kB = Ok (VStr (u "old")) /\ dget kB (dv_writes v') = Some VNone.
Proof.
  exists v08, (snd (commit v08)).
  split; [vm_compute; reflexivity|]. repeat split; vm_compute; reflexivity.
Qed.
(** A commit of at most one key is atomic. *)
Theorem C08_single_key_partial v v' n :
  commit v = (Ok tt, v') -> List.length (dv_writes v) <= 1 -> crashed n v = dv_disk v \/ crashed n v = dv_disk v'.
Proof.
  intros H HL. apply commit_inv in H as (d' & HA & ->). unfold crashed.
  destruct (dv_writes v) as [|kv [|? ?]]; [left; destruct n; reflexivity| |cbn in HL; lia].
  destruct n as [|n]; [left; reflexivity|right]. replace (firstn (S n) [kv]) with [kv] by (destruct n; reflexivity). rewrite HA. destruct v; reflexivity.
Qed.

(** ** C12 *)
(** Storable values (Spec/EncSpec.v), keys with different places: what get returns does not depend
    on which entries the cache has dropped. *)
Theorem C12_cache_independent_partial U w p k x :
  separate U -> (forall k, U k -> key_ok k) -> history U storable w ->
  fst (get k (w_drv w)) = Ok x ->
  exists y, fst (get k (cache_drop p (w_drv w))) = Ok y /\ same x y.
Proof.
  intros HU HK HH HG. pose proof (history_coherent U w HU HK HH) as ((_ & _ & _ & Hb) & _ & _ & HF).
  rewrite get_result in *. set (v := w_drv w) in *. assert (HD : forall z, find k v = Ok z -> find k (cache_drop p v) = find k v -> exists y, find k (cache_drop p v) = Ok y /\ same z y).
  { intros z Hz E. exists z. rewrite E. split; [exact Hz|constructor]. }
  unfold find in *. destruct v as [dl wr rd tx ev ca by_ di]. cbn in *. subst by_. 
  destruct (negb (is_none (pget k wr))) eqn:E1; [apply HD; [exact HG|reflexivity]|].
  destruct (negb (is_none (pget k ca))) eqn:E2.
  - injection HG as <-. clear HD. unfold pget in *. destruct (dget k ca) as [z|] eqn:EC; [|discriminate].
    destruct (dget k (filter (fun kv => negb (p (fst kv))) ca)) as [z'|] eqn:EF.
    + apply (dget_filter (fun k => negb (p k))) in EF. rewrite EC in EF. injection EF as <-. rewrite E2. exists z. split; [reflexivity|constructor].
    + cbn [is_none negb]. destruct (HF k z EC) as (y & Hy & Hs). rewrite fresh_read_value in Hy. eauto.
  - assert (EF : negb (is_none (pget k (filter (fun kv => negb (p (fst kv))) ca))) = false).
    { unfold pget in *. destruct (dget k (filter (fun kv => negb (p (fst kv))) ca)) as [z'|] eqn:EF; [|reflexivity].
      apply (dget_filter (fun k => negb (p k))) in EF. rewrite EF in E2. exact E2. }
    rewrite EF. exists x. split; [exact HG|constructor].
Qed.
(** Missing: values that do not survive the encoding.  For a tuple the answer changes. *)
Definition v12 : driver := snd (hard_apply 1 (w_drv (snd (set kA (VTuple [VInt 1]) true w0)))).
Theorem C12_refuted : exists w v p k, hard_apply 1 (w_drv (snd (set k (VTuple [VInt 1]) true w))) = (Ok tt, v) /\
  fst (get k v) = Ok (VTuple [VInt 1]) /\ fst (get k (cache_drop p v)) = Ok (VList [VInt 1]).
Proof.
  exists w0, v12, (fun _ => true), kA. split; [vm_compute; reflexivity|]. split; vm_compute; reflexivity.
Qed.
Definition c12_keys (k : pystr) : Prop := k = kA \/ k = kB.
Example C12_example : separate c12_keys /\ (forall k, c12_keys k -> key_ok k) /\
  exists v, history c12_keys storable (mkW v rt0) /\ fst (get kA v) = Ok (VInt 5) /\ dget kA (dv_cache v) = Some (VInt 5).
Proof.
  assert (Hi : int_ok 5) by (apply int_ok_small; reflexivity).
  split; [|split].
  - intros k k' [->| ->] [->| ->] H; try reflexivity; vm_compute in H; discriminate.
  - intros k [->| ->]; vm_compute; discriminate.
  - exists (snd (hard_apply 1 (w_drv (run_op (OSet kA (VInt 5) true) w0)))). split.
    + apply (h_hard _ _ 1 (run_op (OSet kA (VInt 5) true) w0)); [|vm_compute; reflexivity].
      apply h_op; [apply h_start|]. cbn. split; [left; reflexivity|exact Hi].
    + split; vm_compute; reflexivity.
Qed.

Print Assumptions C01_read_your_writes.
Print Assumptions C01_lookup_order.
Print Assumptions C01_bypass_refuted.
Print Assumptions C02_delete_invisible_refuted.
Print Assumptions C02_refuted.
Print Assumptions C02_pending_only_partial.
Print Assumptions C03_commit_durable.
Print Assumptions C03_separate_keys.
Print Assumptions C03_commit_succeeds.
Print Assumptions C04_rollback.
Print Assumptions C05_rollback_to_time_refuted.
Print Assumptions C05_refuted.
Print Assumptions C06_hard_apply.
Print Assumptions C06_hard_apply_succeeds.
Print Assumptions C07_crash.
Print Assumptions C08_refuted.
Print Assumptions C08_raises_halfway_refuted.
Print Assumptions C08_single_key_partial.
Print Assumptions C12_cache_independent_partial.
Print Assumptions C12_refuted.
