(** * C99, C100: values are shared, not copied *)
From Coq Require Import Lia.
From Verif Require Import Model.Base Model.State Model.Value Model.Encoder Model.Hdf5 Model.Runtime Model.Driver Model.Heap.
From Verif Require Import Spec.DriverSpec Spec.HeapSpec Proofs.BaseFacts Proofs.HeapFacts Proofs.HeapSim Proofs.HeapSafe Properties.DriverProps.
Local Notation length := List.length (only parsing).

(** ** C99 *)
(** Code that changes no object in place once storage holds it gets the answers, and leaves the directory, of a driver that
    stores values.  (Missing from the claim: code that does change one, below.) *)
Theorem C99_careful_code_partial bypass d rt l : careful l (hstart bypass d rt) -> explained bypass d rt l.
Proof.
  intros H. unfold explained. pose proof (run_sim l (hstart bypass d rt)) as R.
  assert (O : oks (hstart bypass d rt)) by (repeat split; constructor). specialize (R O H).
  destruct (hrun l (hstart bypass d rt)) as [tr s]. destruct R as [_ R].
  change (abs (hstart bypass d rt)) with (vstart bypass d rt) in R. rewrite R. split; reflexivity.
Qed.
(** a list is built in place, stored, read, copied with a change, stored again, committed and read *)
Definition kx : pystr := u "con.x".
Definition careful_code : list hop :=
  [HNew (OList []); HNew (OAtom (VInt 7)); HMutate 0 (OList [1; 1]); HSet kx 0 true; HGet kx; HPart 2 0;
   HNew (OList [3; 3; 1]); HSet kx 4 true; HCommit; HGet kx; HBegin; HGet kx; HNew (OTuple [6]); HSet kx 7 true; HFail; HGet kx].
Example C99_careful_example : careful careful_code (hstart false [] rt0) /\
  map snd (fst (hrun careful_code (hstart false [] rt0))) =
    [Ok VNone; Ok (VList [VInt 7; VInt 7]); Ok VNone; Ok VNone; Ok (VList [VInt 7; VInt 7; VInt 7]); Ok VNone;
     Ok (VList [VInt 7; VInt 7; VInt 7]); Ok VNone; Ok VNone; Ok (VList [VInt 7; VInt 7; VInt 7])].
Proof.
  split; [|vm_compute; reflexivity]. unfold careful_code. cbn [careful].
  repeat (split; [try exact I|]); try exact I.
  intros a Ha [c [Hc _]]. vm_compute in Hc. exact Hc.
Qed.

(** set x = []; read x; append to the list read; read x again: another value, though nothing was written in between. *)
Definition append_code : list hop :=
  [HNew (OList []); HSet kx 0 true; HGet kx; HNew (OAtom (VInt 1)); HMutate 1 (OList [2]); HGet kx; HCommit].
Theorem C99_values_are_shared_refuted : ~ forall bypass d rt l, explained bypass d rt l.
Proof. intros H. specialize (H false [] rt0 append_code). vm_compute in H. destruct H as [H _]. discriminate. Qed.
Example C99_append_trace : fst (hrun append_code (hstart false [] rt0)) =
  [(RSet kx (VList []) true, Ok VNone); (RGet kx, Ok (VList [])); (RGet kx, Ok (VList [VInt 1])); (RCommit, Ok VNone)] /\
  fresh_read (hd_disk (hs_drv (snd (hrun append_code (hstart false [] rt0))))) kx = Ok (VList [VInt 1]).
Proof. split; vm_compute; reflexivity. Qed.

(** What a key is read as after a run *)
Definition answer (bypass : bool) (d : disk) (rt : runtime) (l : list hop) (k : pystr) : result pyval :=
  match fst (hdo (HGet k) (snd (hrun l (hstart bypass d rt)))) with Some (_, r) => r | None => Err EValue end.
(** A transaction that fails can leave a trace: x was applied to the cache as [] by an earlier block; the transaction reads it,
    appends to it and fails; from then on x reads as [1].  The directory still says []. *)
Definition earlier : list hop := [HNew (OList []); HSet kx 0 true; HHard 1].
Definition failing : list hop := [HBegin; HGet kx; HNew (OAtom (VInt 1)); HMutate 1 (OList [2]); HFail].
Theorem C99_failed_transaction_leaves_no_trace_refuted :
  ~ forall before body k, Forall body_op body ->
    answer false [] rt0 (before ++ HBegin :: body ++ [HFail]) k = answer false [] rt0 before k.
Proof.
  intros H. specialize (H earlier [HGet kx; HNew (OAtom (VInt 1)); HMutate 1 (OList [2])] kx).
  assert (B : Forall body_op [HGet kx; HNew (OAtom (VInt 1)); HMutate 1 (OList [2])]) by (repeat constructor).
  specialize (H B). vm_compute in H. discriminate.
Qed.
(** Two nodes with the same blocks and transactions: the one whose cache entry is gone (age, size, restart) reads and stores
    something else. *)
Definition tally : list hop := [HBegin; HGet kx; HNew (OTuple [3]); HSet kx 4 true; HEnd; HCommit].
Theorem C99_cache_loss_is_invisible_refuted :
  ~ forall before p after k, answer false [] rt0 (before ++ HExpire p :: after) k = answer false [] rt0 (before ++ after) k.
Proof. intros H. specialize (H (earlier ++ failing) (fun _ => true) tally kx). vm_compute in H. discriminate. Qed.
Example C99_divergence : answer false [] rt0 (earlier ++ failing ++ tally) kx = Ok (VList [VList [VInt 1]]) /\
  answer false [] rt0 (earlier ++ failing ++ HExpire (fun _ => true) :: tally) kx = Ok (VList [VList []]) /\
  fresh_read (hd_disk (hs_drv (snd (hrun (earlier ++ failing ++ tally) (hstart false [] rt0))))) kx = Ok (VList [VList [VInt 1]]).
Proof. repeat split; vm_compute; reflexivity. Qed.

(** The size of what ends up on disk is not what was charged: an empty list is written and paid for, then filled in place
    with anything and committed. *)
Definition fill_code (k : pystr) (v : pyval) : list hop :=
  [HNew (OList []); HSet k 0 true; HNew (OAtom v); HMutate 0 (OList [1]); HCommit].
Theorem C99_stored_size_is_charged_refuted k v t kl rt rt' :
  key_writable k -> utf8_len k = Ok kl -> encode (VList [v]) = Ok t -> deduct_write kl 2 rt = (Ok tt, rt') ->
  let s := snd (hrun (fill_code k v) (hstart false [] rt)) in
  hs_rt s = rt' /\ fresh_read (hd_disk (hs_drv s)) k = decode (Some t).
Proof.
  intros Hk Hl He Hc. cbv zeta.
  set (h := [OList [2]; OAtom VNone; OAtom v] : heap).
  set (d := mkHD [] [(k, 0)] [(k, 1)] [(k, 0)] [] false []).
  assert (E : hrun (fill_code k v) (hstart false [] rt) =
    let '(r, d') := hcommit h d in ([(RSet k (VList []) true, Ok VNone); (RCommit, okn r)], mkHS h d' rt' [] [0; 2])).
  { assert (E1 : hdo (HSet k 0 true) (mkHS [OList []] (mkHD [] [] [] [] [] false []) rt [] [0]) =
      (Some (RSet k (VList []) true, Ok VNone), mkHS [OList []; OAtom VNone] d rt' [] [0])).
    { unfold hdo. cbn [nth_error]. change (val [OList []] 0) with (Some (VList [])). cbv iota.
      assert (L : encode_kv_len k (VList []) = Ok (kl, 2)) by (unfold encode_kv_len; rewrite Hl; reflexivity).
      rewrite L, Hc. unfold hset_body, hget, hfind, from_disk.
      assert (V : value_from_disk k [] = Ok VNone).
      { unfold value_from_disk. destruct (parse_key k) as [fn g].
        unfold get_value_from_disk, get_value, get_attr, open_r; simpl. destruct (name_ok fn); reflexivity. }
      simpl. unfold lget. simpl. rewrite V. reflexivity. }
    unfold fill_code. cbn [hrun]. change (hdo (HNew (OList [])) (hstart false [] rt)) with
      (@None (req * result pyval), mkHS [OList []] (mkHD [] [] [] [] [] false []) rt [] [0]). cbv iota. rewrite E1.
    change (hdo (HNew (OAtom v)) (mkHS [OList []; OAtom VNone] d rt' [] [0])) with
      (@None (req * result pyval), mkHS [OList []; OAtom VNone; OAtom v] d rt' [] [0; 2]). cbv iota.
    change (hdo (HMutate 0 (OList [1])) (mkHS [OList []; OAtom VNone; OAtom v] d rt' [] [0; 2])) with
      (@None (req * result pyval), mkHS h d rt' [] [0; 2]). cbv iota.
    unfold hdo. destruct (hcommit h d). reflexivity. }
  rewrite E. clear E.
  assert (V0 : val h 0 = Some (VList [v])) by reflexivity. assert (V1 : val h 1 = Some VNone) by reflexivity.
  assert (O : okd h d) by (repeat split; try constructor; simpl; try constructor; eexists; eassumption).
  pose proof (hcommit_sim h d O) as C. destruct (hcommit h d) as [r d'] eqn:Eh. destruct C as [_ C]. split; [reflexivity|].
  cbn [snd hs_drv].
  assert (W : dv_writes (absd h d) = [(k, VList [v])]) by reflexivity.
  destruct (proj2 (C03_commit_succeeds (absd h d))) as [v' C'].
  { rewrite W. intros k0 x [[= <- <-]|[]]. split; [exact Hk|exists t; exact He]. }
  rewrite C in C'. injection C' as -> <-.
  change (hd_disk d') with (dv_disk (absd h d')).
  rewrite (C03_separate_keys (absd h d) (absd h d') k).
  - rewrite W. cbn [dget]. rewrite str_eqb_refl. cbn [stored_form]. rewrite He. reflexivity.
  - rewrite W. repeat constructor. intros [].
  - exact C.
  - apply Hk.
  - rewrite W. intros k' [<-|[]] _. reflexivity.
Qed.
(** ... so more than the 128 KB a transaction may write *)
Definition metered : runtime := set_up 1000000 true rt0.
Definition big : pyval := VStr (repeat 97%N (N.to_nat 140000)).
Example C99_limit_evaded : key_writable kx /\ utf8_len kx = Ok 5 /\
  (exists t, encode (VList [big]) = Ok t /\ (WRITE_MAX < Z.of_nat (length t))%Z) /\
  (exists rt', deduct_write 5 2 metered = (Ok tt, rt') /\ rt_writes rt' = 7%Z /\ tr_cost (rt_tracer rt') = 175%Z).
Proof.
  split; [split; [vm_compute; discriminate|vm_compute; reflexivity]|]. split; [vm_compute; reflexivity|]. split.
  - destruct (encode (VList [big])) as [t|e] eqn:E.
    + exists t. split; [reflexivity|].
      assert (L : match encode (VList [big]) with Ok t => Z.ltb WRITE_MAX (Z.of_nat (length t)) | Err _ => false end = true)
        by (vm_compute; reflexivity).
      rewrite E in L. apply Z.ltb_lt. exact L.
    + exfalso. assert (L : is_ok (encode (VList [big])) = true) by (vm_compute; reflexivity). rewrite E in L. discriminate.
  - eexists. split; [vm_compute; reflexivity|]. split; reflexivity.
Qed.

(** ** C100 *)
(** A transaction that fails gives back the pending writes it started with, whatever its code did to shared objects. *)
Theorem C100_failed_transaction_restores_pending bypass d rt before body :
  Forall body_op body ->
  let s := snd (hrun before (hstart bypass d rt)) in
  let s' := snd (hrun (HBegin :: body ++ [HFail]) s) in
  map fst (hd_writes (hs_drv s')) = map fst (hd_writes (hs_drv s)) /\
  forall k v, dget k (pending s) = Some (Some v) -> dget k (pending s') = Some (Some v).
Proof. intros Hb. apply fail_restores; [|exact Hb]. apply run_whole, start_whole. Qed.
(** ... so every key with a pending value reads as it did *)
Lemma hget_pending k s v : hd_bypass (hs_drv s) = false -> dget k (pending s) = Some (Some v) -> is_none v = false ->
  exists s', hdo (HGet k) s = (Some (RGet k, Ok v), s').
Proof.
  intros B. destruct s as [h d rt snap regs]. unfold pending. simpl in *.
  change (map (fun kl => (fst kl, val h (snd kl))) (hd_writes d)) with (dmap (val h) (hd_writes d)). rewrite dget_dmap.
  destruct (dget k (hd_writes d)) as [l|] eqn:E; [|discriminate]. simpl. intros [= V] N.
  assert (F : hfind k h d = Ok (l, h)) by (unfold hfind, lget; rewrite B, E, (val_lnone _ _ _ V), N; reflexivity).
  unfold hget. rewrite F, (val_vof _ _ _ V). eexists. reflexivity.
Qed.
Lemma hdo_bypass o s : hd_bypass (hs_drv (snd (hdo o s))) = hd_bypass (hs_drv s).
Proof.
  destruct s as [h d rt snap regs]. unfold hdo. destruct o as [k|k r txn|o|r i|r o| |n|n|p| | | | ]; simpl; try reflexivity.
  - unfold hget. destruct (hfind k h d) as [[l h']|e]; [|reflexivity]. simpl. destruct (lget h' k (hd_reads d)); reflexivity.
  - destruct (nth_error regs r) as [l|]; [|reflexivity]. destruct (val h l) as [v|]; [|reflexivity].
    destruct (encode_kv_len k v) as [[kl vl]|e]; [|reflexivity]. destruct (deduct_write kl vl rt) as [[[]|e] rt']; [|reflexivity].
    unfold hset_body, hget. destruct (lget h k (hd_reads d)) as [l'|].
    + destruct (hcoerce l h) as [[l2 h2]|e]; reflexivity.
    + destruct (hfind k h d) as [[l1 h1]|e]; [|reflexivity]. destruct (hcoerce l h1) as [[l2 h2]|e]; destruct (lget h1 k (hd_reads d)); reflexivity.
  - destruct (look regs o); reflexivity.
  - destruct (nth_error regs r) as [l|]; [|reflexivity]. destruct (nth_error h l) as [q|]; [|reflexivity]. destruct (nth_error (parts q) i); reflexivity.
  - destruct (nth_error regs r) as [l|]; [|reflexivity]. destruct (look regs o) as [o'|]; [|reflexivity].
    destruct (nth_error h l) as [q|]; [|reflexivity]. destruct (can_become q o'); reflexivity.
  - unfold hcommit. match goal with |- context [foreach ?f ?l ?dk] => destruct (foreach f l dk) as [[[]|e] dk'] end; reflexivity.
  - unfold hhard. match goal with |- context [foreach ?f ?l ?dk] => destruct (foreach f l dk) as [[[]|e] dk'] end; reflexivity.
  - destruct n; reflexivity.
Qed.
Lemma hrun_bypass l s : hd_bypass (hs_drv (snd (hrun l s))) = hd_bypass (hs_drv s).
Proof.
  revert s. induction l as [|o l IH]; intros s; simpl; [reflexivity|]. pose proof (hdo_bypass o s) as B.
  destruct (hdo o s) as [e s1]. specialize (IH s1). destruct (hrun l s1). simpl in *. congruence.
Qed.
Theorem C100_pending_keys_read_as_before d rt before body k v :
  Forall body_op body -> is_none v = false ->
  dget k (pending (snd (hrun before (hstart false d rt)))) = Some (Some v) ->
  answer false d rt before k = Ok v /\ answer false d rt (before ++ HBegin :: body ++ [HFail]) k = Ok v.
Proof.
  intros Hb N P. unfold answer. split.
  - destruct (hget_pending k (snd (hrun before (hstart false d rt))) v) as [s' E]; [rewrite hrun_bypass; reflexivity|exact P|exact N|].
    rewrite E. reflexivity.
  - rewrite hrun_app. destruct (C100_failed_transaction_restores_pending false d rt before body Hb) as [_ R].
    destruct (hget_pending k (snd (hrun (HBegin :: body ++ [HFail]) (snd (hrun before (hstart false d rt))))) v) as [s' E];
      [rewrite !hrun_bypass; reflexivity|exact (R k v P)|exact N|]. rewrite E. reflexivity.
Qed.
(** x = [] is pending; the failing transaction reads it, appends to it, stores it under y too, and fails *)
Example C100_example :
  let body := [HGet kx; HNew (OAtom (VInt 1)); HMutate 1 (OList [2]); HSet (u "con.y") 1 true] in
  let before := [HNew (OList []); HSet kx 0 true] in
  Forall body_op body /\
  dget kx (pending (snd (hrun before (hstart false [] rt0)))) = Some (Some (VList [])) /\
  answer false [] rt0 (before ++ HBegin :: body) kx = Ok (VList [VInt 1]) /\
  answer false [] rt0 (before ++ HBegin :: body ++ [HFail]) kx = Ok (VList []) /\
  answer false [] rt0 (before ++ HBegin :: body ++ [HFail]) (u "con.y") = Ok VNone.
Proof. cbv zeta. split; [repeat constructor|]. repeat split; vm_compute; reflexivity. Qed.
