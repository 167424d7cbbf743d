(** * C103: the attributes of a contract object *)
From Verif Require Import Model.Base Model.State Model.Dec Model.Time Model.Value Model.Encoder Model.Hdf5 Model.Runtime Model.Driver Model.Orm Model.Exec Model.Executor Model.Client Model.ClientAttrs.
From Verif Require Import Spec.DriverSpec Spec.OrmSpec Spec.ClientSpec Spec.ClientAttrSpec Proofs.BaseFacts Proofs.DiskFacts Proofs.DriverFacts Proofs.OrmFacts Proofs.SubmitFacts.
From Verif Require Import Properties.OrmProps Properties.Demo Properties.ClientProps.
Local Open Scope string_scope.
Local Open Scope list_scope.

Lemma items_keys ord p v its v' : set_order ord -> items ord p v = (Ok its, v') ->
  (exists r, v' = set_reads r v) /\ exists db, iter_from_disk p (dv_disk v) = Ok db /\
  forall k, In k (dkeys its) <-> In k (dkeys (live p (dv_writes v))) \/ In k (dkeys (live p (dv_cache v))) \/ In k db.
Proof.
  intros HO E. split; [pose proof (ro_items ord p v) as H; rewrite E in H; exact H|].
  unfold items in E. rewrite bind_eq in E. cbn [gets] in E. rewrite bind_eq in E. cbn [lift] in E. destruct (iter_from_disk p (dv_disk v)) as [db|] eqn:ED; [|discriminate]. cbn [lift] in E.
  rewrite bind_eq in E. destruct (mapm _ _ v) as [[ex|] v2] eqn:EM; [|discriminate]. injection E as <- _. apply mapm_keys in EM. exists db. split; [reflexivity|]. intros k.
  rewrite !dupdate_keys_iff, EM, (HO _ k), filter_In, Bool.negb_true_iff.
  split; [intros [[[[]|H]|H]|[H _]]; tauto|]. intros [H|[H|H]]; [left; left; right; exact H|left; right; exact H|].
  destruct (str_mem k (dkeys (dupdate (dupdate [] (live p (dv_writes v))) (live p (dv_cache v))))) eqn:EK; [|right; auto].
  left. apply str_mem_spec in EK. rewrite !dupdate_keys_iff in EK. exact EK.
Qed.
Lemma listed_live_keys c p k : listed_live c k /\ startswith k p = true <-> In k (dkeys (live p (dv_writes (drv_of c)))) \/ In k (dkeys (live p (dv_cache (drv_of c)))).
Proof. unfold listed_live. rewrite !live_In. intuition. Qed.
Lemma plain_file n : ~ In (ch ".") n -> ~ In (ch ":") n -> forall s, fst (parse_key (n ++ ch "." :: s)) = n.
Proof.
  intros H1 H2 s. unfold parse_key. rewrite split1_app by exact H1. destruct (split1 (ch ":") n) as [[a b]|] eqn:E; [|reflexivity].
  apply split1_Some in E as (E & _). exfalso. apply H2. rewrite E. apply in_or_app. right. left. reflexivity.
Qed.
Lemma plain_name n : ~ In (ch ".") n -> ~ In (ch ":") n -> fst (parse_key n) = n.
Proof.
  intros H1 H2. unfold parse_key. destruct (split1 (ch ".") n) as [[a b]|] eqn:E; [apply split1_Some in E as (E & _); exfalso; apply H1; rewrite E; apply in_or_app; right; left; reflexivity|].
  destruct (split1 (ch ":") n) as [[a b]|] eqn:E2; [|reflexivity].
  apply split1_Some in E2 as (E2 & _). exfalso. apply H2. rewrite E2. apply in_or_app. right. left. reflexivity.
Qed.
Lemma iter_groups n d db k : iter_from_disk n d = Ok db -> In k db -> In k (get_groups d (fst (parse_key n))).
Proof.
  unfold iter_from_disk. destruct (parse_key n) as [fn g]. destruct (is_file d fn) as [b|]; [|discriminate]. cbn [bindr fst]. intros E. injection E as <-. destruct b; [|intros []].
  intros H. apply In_str_sort, filter_In in H as [H _]. exact H.
Qed.
Lemma iter_same_file p q d a : fst (parse_key p) = fst (parse_key q) -> iter_from_disk p d = Ok a -> exists b, iter_from_disk q d = Ok b.
Proof. unfold iter_from_disk. destruct (parse_key p) as [fn g], (parse_key q) as [fn' g']. cbn [fst]. intros ->. destruct (is_file d fn') as [b|]; [|discriminate]. intros _. eexists. reflexivity. Qed.

(** What contract.item gives, when the keys of the contract can be listed at all: the claim, about the keys that are pending or cached.
    (No variable may be called like the contract, a dot and the item: its group would be taken for the item.) *)
Theorem C103_attrs_partial L own name item c ks c1 :
  set_order (l_ord L) -> disk_no_colon (dv_disk (drv_of c)) -> ~ In (ch ".") name -> ~ In (ch ":") name -> ~ In item own ->
  ~ In (name ++ u "." ++ item) (get_groups (dv_disk (drv_of c)) name) ->
  contract_keys L name c = (Ok ks, c1) ->
  exists r c', contract_attr L own name item c = (r, c') /\ attr_meaning (listed_live c) c name item r /\
  (forall k, client_reads c' k = client_reads c k).
Proof.
  intros HO HD N1 N2 HI HG HK. unfold contract_attr. destruct (str_mem item own) eqn:EO; [apply str_mem_spec in EO; contradiction|]. rewrite bind_eq, HK.
  unfold contract_keys in HK. rewrite kd_mach in HK. unfold keys in HK. rewrite bind_eq in HK.
  destruct (items (l_ord L) name (drv_of c)) as [[its|e] v1] eqn:EI; cbn [ret fst snd] in HK; [|discriminate]. injection HK as <- <-.
  apply items_keys in EI as ((rd & ->) & db & ED & HIn); [|exact HO]. set (v1 := set_reads rd (drv_of c)) in *. set (c1 := set_kmach _ c).
  assert (D1 : drv_of c1 = v1) by reflexivity. clearbody c1.
  change (name ++ ch "." :: item) with (name ++ u "." ++ item). set (full := name ++ u "." ++ item) in *.
  assert (HF : In full (dkeys its) <-> listed_live c full).
  { rewrite HIn. assert (SF : startswith full name = true) by apply startswith_app. split.
    - intros [H|[H|H]]; [apply (listed_live_keys c name); left; exact H|apply (listed_live_keys c name); right; exact H|]. exfalso. apply HG.
      pose proof (iter_groups _ _ _ _ ED H) as G. rewrite plain_name in G by assumption. exact G.
    - intros H. destruct (proj1 (listed_live_keys c name full) (conj H SF)) as [X|X]; tauto. }
  destruct (str_mem full (dkeys its)) eqn:EF.
  - apply str_mem_spec, HF in EF. destruct (startswith item (u "__")) eqn:EU.
    + rewrite bind_eq, kd_mach, D1. pose proof (get_result full v1) as G. destruct (ro_get full v1) as (r2 & R2). destruct (get full v1) as [g v2]. cbn [fst snd] in *. subst g v2.
      assert (CR : find full v1 = client_reads c full) by (unfold client_reads; rewrite get_result; apply find_set_reads).
      destruct (find full v1) as [x|e]; eexists _, _; (split; [reflexivity|]); (split; [econstructor; eauto|]); intros k; unfold client_reads; rewrite !get_result; change (find k (set_reads r2 v1) = find k (drv_of c)); rewrite find_set_reads; apply find_set_reads.
    + eexists _, _. split; [reflexivity|]. split; [constructor; assumption|]. intros k. unfold client_reads. rewrite D1, !get_result. apply find_set_reads.
  - assert (EF2 : ~ listed_live c full) by (intros H; apply HF, str_mem_spec in H; congruence). rewrite bind_eq, kd_mach, D1. unfold values. rewrite bind_eq.
    set (p := name ++ ch "." :: item ++ u ":").
    assert (HP : In (ch ":") p) by (apply in_or_app; right; right; apply in_or_app; right; left; reflexivity).
    destruct (iter_same_file name p (dv_disk v1) db) as (b & EB); [rewrite plain_name by assumption; symmetry; apply plain_file; assumption|exact ED|].
    destruct (items_colon (l_ord L) p v1 (set_order_nil _ HO) HD HP) as [(e & X & _)|EI]; [congruence|]. rewrite EI. rewrite bind_eq, EI. cbn [ret fst snd].
    assert (HL : forall k, In k (dkeys (listed p v1)) <-> listed_live c k /\ startswith k p = true).
    { intros k. rewrite listed_live_keys. unfold listed. rewrite !dupdate_keys_iff. cbn [In dkeys map]. change (dv_writes v1) with (dv_writes (drv_of c)). change (dv_cache v1) with (dv_cache (drv_of c)). tauto. }
    assert (FP : forall r, name ++ u "." ++ item ++ u ":" ++ r = p ++ r) by (intros r; unfold p; change (ch "." :: item ++ u ":") with (u "." ++ item ++ u ":"); rewrite <- !app_assoc; reflexivity).
    destruct (listed p v1) as [|[k x] l] eqn:EL; cbn [map snd].
    + eexists _, _. split; [reflexivity|]. split; [|intros k; unfold client_reads; rewrite !get_result; apply find_set_reads].
      apply am_none; [exact EF2|]. intros r HR. rewrite FP in HR. destruct (proj2 (HL (p ++ r)) (conj HR (startswith_app p r))).
    + eexists _, _. split; [reflexivity|]. split; [|intros j; unfold client_reads; rewrite !get_result; apply find_set_reads].
      destruct (proj1 (HL k) (or_introl eq_refl)) as [H1 H2]. apply startswith_spec in H2 as (r & ->). apply am_hash with r; [exact EF2|]. rewrite FP. exact H1.
Qed.
(** After a commit (quick_write commits) there is no attribute at all, whatever the contract has stored: *)
Theorem C103_committed_refuted L own name item c v' ks c1 c2 :
  set_order (l_ord L) -> disk_no_colon (dv_disk (drv_of c)) -> ~ In (ch ".") name -> ~ In (ch ":") name -> ~ In item own ->
  commit (drv_of c) = (Ok tt, v') -> drv_of c1 = v' ->
  ~ In (name ++ u "." ++ item) (get_groups (dv_disk v') name) ->
  contract_keys L name c1 = (Ok ks, c2) ->
  fst (contract_attr L own name item c1) = Err EAttribute.
Proof.
  intros HO HD N1 N2 HI HC E1 HG HK. destruct (commit_no_colon _ _ HD HC) as (HD' & HW & HCa). subst v'.
  destruct (C103_attrs_partial L own name item c1 ks c2 HO HD' N1 N2 HI HG HK) as (r & c' & -> & H & _). cbn [fst].
  assert (NL : forall k, ~ listed_live c1 k). { intros k [(x & X & _)|(x & X & _)]; [rewrite HW in X|rewrite HCa in X]; exact X. }
  destruct H as [H|? H|? H|? _ H|]; try (destruct (NL _ H)). reflexivity.
Qed.
(** a contract that has written a variable, an entry of a hash and has an owner, not yet committed; and the same after a quick_write *)
Definition attrs_client : client := mkClient (idle_mach [(u "con_b.v", VInt 7); (u "con_b.h:x", VInt 8); (u "con_b.__owner__", VStr (u "bob"))]) (mkCfg false (u "currency") (u "balances") false false) [] (u "sys").
Definition attrs_after : client := snd (quick_write (u "con_b") (u "h") [u "y"] (VInt 9) attrs_client).
Definition attr_of (i : string) (c : client) : result attr_result := fst (contract_attr (demo []) [u "f"; u "name"] (u "con_b") (u i) c).
Theorem C103_refuted : fst (quick_write (u "con_b") (u "h") [u "y"] (VInt 9) attrs_client) = Ok tt /\
  (client_reads attrs_after (u "con_b.v") = Ok (VInt 7) /\ client_reads attrs_after (u "con_b.h:y") = Ok (VInt 9) /\ client_reads attrs_after (u "con_b.__owner__") = Ok (VStr (u "bob"))) /\
  attr_of "v" attrs_client = Ok (AVariable (u "con_b") (u "v")) /\ attr_of "h" attrs_client = Ok (AHash (u "con_b") (u "h")) /\ attr_of "__owner__" attrs_client = Ok (AValue (VStr (u "bob"))) /\
  attr_of "v" attrs_after = Err EAttribute /\ attr_of "h" attrs_after = Err EAttribute /\ attr_of "__owner__" attrs_after = Err EAttribute.
Proof. repeat split; vm_compute; reflexivity. Qed.
(** a function, or another attribute of the object, hides a variable of the same name *)
Theorem C103_own_first_refuted L own name item c : In item own -> contract_attr L own name item c = (Ok AOwn, c).
Proof. intros H. unfold contract_attr. apply str_mem_spec in H. rewrite H. reflexivity. Qed.
Example C103_example : set_order (l_ord (demo [])) /\ disk_no_colon (dv_disk (drv_of attrs_client)) /\
  fst (contract_keys (demo []) (u "con_b") attrs_client) = Ok [u "con_b.v"; u "con_b.h:x"; u "con_b.__owner__"] /\
  fst (commit (drv_of attrs_client)) = Ok tt /\
  ~ In (u "con_b.v") (get_groups (dv_disk (snd (commit (drv_of attrs_client)))) (u "con_b")) /\
  get_groups (dv_disk (snd (commit (drv_of attrs_client)))) (u "con_b") = [u "__owner__"; u "h"; u "v"].
Proof.
  split; [intros l k; reflexivity|]. split; [intros ? ? []|]. split; [vm_compute; reflexivity|]. split; [vm_compute; reflexivity|].
  split; [|vm_compute; reflexivity]. intros H. vm_compute in H. repeat destruct H as [H|H]; try discriminate H. exact H.
Qed.
Print Assumptions C103_attrs_partial.
Print Assumptions C103_committed_refuted.
