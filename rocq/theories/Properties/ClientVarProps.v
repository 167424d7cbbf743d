(** * C127: a client reads and writes the contract's own entries *)
From Verif Require Import Model.Base Model.State Model.Dec Model.Value Model.Encoder Model.Hdf5 Model.Runtime Model.Driver Model.Orm Model.Exec Model.Executor Model.Client.
From Verif Require Import Spec.DecSpec Spec.EncSpec Spec.DriverSpec Spec.OrmSpec.
From Verif Require Import Proofs.BaseFacts Proofs.DecFacts Proofs.DiskFacts Proofs.DriverFacts Proofs.ReachFacts Proofs.OrmFacts.
From Verif Require Import Properties.DriverProps Properties.OrmProps.
From Verif Require Import Properties.SubmissionProps.
From Coq Require Import Lia.

(** What code of a contract reads now: its hash [n] with the default [d], its variable [n] with the default [d] *)
Definition contract_sees (ostr : pyval -> pystr) (contract n : pystr) (d : pyval) (ps : list pystr) (c : client) : result pyval :=
  fst (hash_get ostr (hash_decl contract n d) (strs ps) (s_w (k_mach c))).
Definition variable_is (contract n : pystr) (t : option pytype) (d : pyval) (c : client) : result pyval := fst (var_get (var_decl contract n t d) (s_w (k_mach c))).
(** What any client read of any entry answers *)
Definition client_sees (contract n : pystr) (ps : list pystr) (c : client) : result pyval := fst (client_get_var contract n ps c).

Lemma client_sees_find contract n ps c : client_sees contract n ps c = find (make_key contract n ps) (s_drv (k_mach c)).
Proof.
  unfold client_sees, client_get_var, on_kd, on_m, on_w, get_var. destruct (get_upd (make_key contract n ps) (s_w (k_mach c))) as (x & E). rewrite E. reflexivity.
Qed.
(** The client reads what the contract reads, but the default for nothing; decimals are made anew for the contract. *)
Theorem C127_reads ostr contract n d ps c : ps <> [] -> valid_key ostr (strs ps) ps ->
  (client_sees contract n ps c = Ok VNone -> (forall r, d <> VFloat r) -> (forall x, d <> VDec x) -> contract_sees ostr contract n d ps c = Ok d) /\
  (forall v, client_sees contract n ps c = Ok v -> v <> VNone -> storable v -> (forall r, v <> VFloat r) -> exists v', contract_sees ostr contract n d ps c = Ok v' /\ same v v') /\
  (forall e, client_sees contract n ps c = Err e -> contract_sees ostr contract n d ps c = Err e).
Proof.
  intros HP HV. rewrite client_sees_find. unfold contract_sees. assert (E : validate_key ostr (strs ps) = Ok (join (u ":") ps)) by (apply validate_spec; eauto).
  destruct (hash_get_eq ostr (hash_decl contract n d) (strs ps) (s_w (k_mach c)) _ E) as (x & ->). cbn [fst]. rewrite (entry_key_make _ _ _ _ HP). fold (s_drv (k_mach c)).
  split; [|split].
  - intros -> Hf Hd. cbn [bindr]. unfold or_default. cbn [is_none h_default hash_decl]. destruct d; try reflexivity; [exfalso; eapply Hf; reflexivity|exfalso; eapply Hd; reflexivity].
  - intros v -> Hn Hs Hf. cbn [bindr]. unfold or_default. replace (is_none v) with false by (destruct v; try reflexivity; contradiction). exact (norm_dec_same v Hn Hs Hf).
  - intros e ->. reflexivity.
Qed.
Theorem C127_reads_variable contract n t d c :
  (client_sees contract n [] c = Ok VNone -> variable_is contract n t d c = Ok d) /\
  (forall v, client_sees contract n [] c = Ok v -> v <> VNone -> variable_is contract n t d c = Ok v) /\
  (forall e, client_sees contract n [] c = Err e -> variable_is contract n t d c = Err e).
Proof.
  rewrite client_sees_find. unfold variable_is. destruct (var_get_eq (var_decl contract n t d) (s_w (k_mach c))) as (r & ->). cbn [fst var_decl v_key v_default]. fold (s_drv (k_mach c)).
  split; [|split].
  - intros ->. reflexivity.
  - intros v -> Hn. cbn [bindr]. unfold or_default. replace (is_none v) with false by (destruct v; try reflexivity; contradiction). reflexivity.
  - intros e ->. reflexivity.
Qed.
(** What the client sets is what it reads then (floats as decimals), at that entry and at no other; reads record, and change no read. *)
Theorem C127_writes contract n ps v c c' : dv_bypass (s_drv (k_mach c)) = false -> v <> VNone -> client_set_var contract n ps v c = (Ok tt, c') ->
  (exists v', coerce v = Ok v' /\ client_sees contract n ps c' = Ok v') /\
  (forall contract' n' ps', make_key contract' n' ps' <> make_key contract n ps -> client_sees contract' n' ps' c' = client_sees contract' n' ps' c) /\
  dv_txn (s_drv (k_mach c')) = dv_txn (s_drv (k_mach c)) /\ dv_disk (s_drv (k_mach c')) = dv_disk (s_drv (k_mach c)).
Proof.
  intros HB HV H. unfold client_set_var, on_m, on_w, set_var in H.
  destruct (set_spec (make_key contract n ps) v false (s_w (k_mach c))) as [(y & r & t & HC & _ & HE & HW & HT)|(e & r & HE & _)].
  - destruct (set (make_key contract n ps) v false (s_w (k_mach c))) as [q w]. cbn [fst snd] in *. injection H as -> <-. cbn [k_mach set_kmach]. change (s_drv (set_w w (k_mach c))) with (w_drv w).
    split; [|split; [|split]].
    + exists y. split; [exact HC|]. rewrite client_sees_find. cbn [k_mach set_kmach]. change (s_drv (set_w w (k_mach c))) with (w_drv w). rewrite HW. unfold find, pget. unfold s_drv in HB. pose proof (coerce_not_none _ _ HC HV) as HN. destruct (w_drv (s_w (k_mach c))) as [? ? ? ? ? ? ? ?]; cbn in HB |- *. subst. rewrite dget_dset, str_eqb_refl.
      destruct y; try reflexivity; contradiction HN; reflexivity.
    + intros contract' n' ps' Hk. rewrite !client_sees_find. cbn [k_mach set_kmach]. change (s_drv (set_w w (k_mach c))) with (w_drv w). rewrite HW. unfold find, pget, s_drv. destruct (w_drv (s_w (k_mach c))); cbn. rewrite dget_dset_other by exact Hk. reflexivity.
    + rewrite HW, HT. unfold s_drv. destruct (w_drv (s_w (k_mach c))); reflexivity.
    + rewrite HW. unfold s_drv. destruct (w_drv (s_w (k_mach c))); reflexivity.
  - destruct (set (make_key contract n ps) v false (s_w (k_mach c))) as [q w]. cbn [fst snd] in *. subst q. discriminate H.
Qed.
(** A client get changes nothing any read answers. *)
Theorem C127_get_is_quiet contract n ps c contract' n' ps' : client_sees contract' n' ps' (snd (client_get_var contract n ps c)) = client_sees contract' n' ps' c.
Proof.
  rewrite !client_sees_find. generalize (make_key contract' n' ps'). intros k.
  unfold client_get_var, on_kd, on_m, on_w, get_var. destruct (get_upd (make_key contract n ps) (s_w (k_mach c))) as (x & E). rewrite E. cbn [snd k_mach set_kmach].
  change (s_drv (set_w (upd_reads x (s_w (k_mach c))) (k_mach c))) with (w_drv (upd_reads x (s_w (k_mach c)))). unfold upd_reads, find, pget, s_drv. destruct (s_w (k_mach c)) as [[] ?]; reflexivity.
Qed.
(** The client's indices are not checked: a part with ':' names the entry of two parts, which contracts can read and write, and a name with ':' the entry of a hash. *)
Theorem C127_alias_refuted contract n a b v : client_get_var contract n [a ++ u ":" ++ b] = client_get_var contract n [a; b] /\
  client_set_var contract n [a ++ u ":" ++ b] v = client_set_var contract n [a; b] v /\ client_set_var contract (n ++ u ":" ++ a) [] v = client_set_var contract n [a] v.
Proof.
  assert (E : make_key contract n [a ++ u ":" ++ b] = make_key contract n [a; b]) by (unfold make_key; cbn [join]; rewrite <- ?app_assoc; reflexivity).
  assert (E2 : make_key contract (n ++ u ":" ++ a) [] = make_key contract n [a]) by (unfold make_key; cbn [join]; rewrite <- ?app_assoc; reflexivity).
  unfold client_get_var, client_set_var, get_var, set_var. rewrite E, E2. repeat split.
Qed.
(** the hypotheses of the theorems: a client sets an entry of a hash; the contract reads it, and a default elsewhere *)
Example C127_example : let r := client_set_var (u "con_a") (u "h") [u "a"; u "b"] (VInt 5) bobs in
  fst r = Ok tt /\ dv_bypass (s_drv (k_mach bobs)) = false /\ client_sees (u "con_a") (u "h") [u "a"; u "b"] (snd r) = Ok (VInt 5) /\
  contract_sees os0 (u "con_a") (u "h") (VInt 7) [u "a"; u "b"] (snd r) = Ok (VInt 5) /\ contract_sees os0 (u "con_a") (u "h") (VInt 7) [u "a"] (snd r) = Ok (VInt 7).
Proof. cbv zeta. repeat match goal with |- _ /\ _ => split end; vm_compute; reflexivity. Qed.
Example C127_valid_example : valid_key os0 (strs [u "a"; u "b"]) [u "a"; u "b"].
Proof.
  split.
  - repeat constructor.
  - cbn; lia.
  - intros t [<-|[<-|[]]]; split; intros H; repeat (destruct H as [H|H]; [discriminate|]); destruct H.
  - cbn; lia.
  - intros l t E. injection E as <-. intros [H|[H|[]]]; discriminate.
Qed.
