(** * C09-C11, C28-C31, C33-C35: the ORM *)
From Verif Require Import Model.Base Model.State Model.Dec Model.Value Model.Encoder Model.Hdf5 Model.Runtime Model.Driver Model.Orm.
From Verif Require Import Spec.DecSpec Spec.EncSpec Spec.DriverSpec Spec.OrmSpec.
From Verif Require Import Proofs.BaseFacts Proofs.DecFacts Proofs.DiskFacts Proofs.DriverFacts Proofs.ReachFacts Proofs.OrmFacts.
From Verif Require Import Properties.DriverProps.
From Coq Require Import Lia.

(** Test data *)
(** computes each conjunct *)
Ltac vmsplit := repeat match goal with |- _ /\ _ => split end; vm_compute; reflexivity.
Definition os0 : pyval -> pystr := fun _ => u "<object>".
Definition hB : hash := hash_decl (u "con_b") (u "h") VNone.
Definition one (s : string) : hkey := HOne (PVal (VStr (u s))).

(** ** C28: validation of keys *)
Theorem C28_hash_keys ostr h k :
  (forall v w w', hash_set ostr h k v w = (Ok tt, w') -> exists ts, valid_key ostr k ts) /\
  (forall x w w', hash_get ostr h k w = (Ok x, w') -> exists ts, valid_key ostr k ts) /\
  ((~ exists ts, valid_key ostr k ts) -> exists e, forall v w, hash_set ostr h k v w = (Err e, w) /\ hash_get ostr h k w = (Err e, w)).
Proof.
  destruct (validate_key ostr k) as [s|e] eqn:E.
  - pose proof (proj1 (validate_spec ostr k s) E) as (ts & Hv & _). split; [eauto|]. split; [eauto|]. intros H. exfalso. apply H. eauto.
  - split; [|split].
    + intros v w w' H. unfold hash_set in H. rewrite bind_eq, E in H. discriminate.
    + intros x w w' H. rewrite (hash_get_err _ _ _ _ _ E) in H. discriminate.
    + intros _. exists e. intros v w. split; [|apply hash_get_err, E]. unfold hash_set. rewrite bind_eq, E. reflexivity.
Qed.
(** Every valid key is accepted and addresses contract.name:part1:...:partn *)
Theorem C28_accepted ostr c n d k ts : valid_key ostr k ts ->
  (forall v w, hash_set ostr (hash_decl c n d) k v w = set (c ++ u "." ++ n ++ u ":" ++ join (u ":") ts) v true w) /\
  (forall w, fst (get (c ++ u "." ++ n ++ u ":" ++ join (u ":") ts) (w_drv w)) = Ok VNone ->
     (forall r, d <> VFloat r) -> (forall x, d <> VDec x) -> fst (hash_get ostr (hash_decl c n d) k w) = Ok d).
Proof.
  intros Hv. assert (E : validate_key ostr k = Ok (join (u ":") ts)) by (apply validate_spec; eauto).
  assert (EK : c ++ u "." ++ n ++ u ":" ++ join (u ":") ts = entry_key (hash_decl c n d) (join (u ":") ts)) by (rewrite entry_key_eq; reflexivity).
  split.
  - intros v w. unfold hash_set. rewrite bind_eq, E. cbn [lift]. rewrite EK. reflexivity.
  - intros w H Hf Hd. destruct (hash_get_eq ostr (hash_decl c n d) k w _ E) as (x & ->). cbn [fst]. rewrite EK, get_result in H. rewrite H. cbn.
    destruct d; try reflexivity; [exfalso; eapply Hf; reflexivity|exfalso; eapply Hd; reflexivity].
Qed.
Example C28_example : exists ts, valid_key os0 (HTup [PVal (VStr (u "a")); PVal (VInt 7)]) ts /\ join (u ":") ts = u "a:7" /\
  (forall v, hash_set os0 hB (one "a.b") v w0 = (Err EAssertion, w0)).
Proof.
  exists [u "a"; u "7"]. split; [|split; [reflexivity|intros v; reflexivity]].
  split.
  - repeat constructor.
  - cbn; lia.
  - intros t [<-|[<-|[]]]; split; intros H; repeat (destruct H as [H|H]; [discriminate|]); destruct H.
  - cbn; lia.
  - intros l t E. injection E as <-. intros [H|[H|[]]]; discriminate.
Qed.

(** ** C29: different tuples are different entries *)
Lemma strs_texts ostr ps ts : texts ostr (key_parts (strs ps)) ts -> ts = ps.
Proof.
  unfold texts, strs; cbn [key_parts]. revert ts. induction ps as [|p ps IH]; intros ts H; inversion H; subst; [reflexivity|].
  f_equal; [|apply IH; assumption]. match goal with X : part_str _ _ = _ |- _ => cbn in X; injection X as <- end. reflexivity.
Qed.
Lemma strs_valid ostr ps s : validate_key ostr (strs ps) = Ok s -> s = join (u ":") ps /\ forall p, In p ps -> ~ In (ch ":") p.
Proof.
  intros H. apply validate_spec in H as (ts & [H1 _ H3 _ _] & ->). apply strs_texts in H1. subst ts.
  split; [reflexivity|]. intros p Hp. apply (H3 p Hp).
Qed.
Theorem C29_tuples_distinct ostr ps qs s : ps <> [] -> qs <> [] ->
  validate_key ostr (strs ps) = Ok s -> validate_key ostr (strs qs) = Ok s -> ps = qs.
Proof.
  intros Hp Hq H1 H2. apply strs_valid in H1 as [E1 H1]. apply strs_valid in H2 as [E2 H2].
  apply (join_inj (ch ":")); try assumption. change [ch ":"] with (u ":"). congruence.
Qed.
Theorem C29_no_interference ostr h ps qs v w w' : ps <> [] -> qs <> [] -> ps <> qs ->
  hash_set ostr h (strs ps) v w = (Ok tt, w') ->
  fst (hash_get ostr h (strs qs) w') = fst (hash_get ostr h (strs qs) w).
Proof.
  intros Hp Hq Hne H. destruct (validate_key ostr (strs qs)) as [t|e] eqn:Eq.
  2:{ rewrite !(hash_get_err _ _ _ _ _ Eq). reflexivity. }
  destruct (hash_get_eq ostr h (strs qs) w _ Eq) as (x & ->). destruct (hash_get_eq ostr h (strs qs) w' _ Eq) as (x' & ->). cbn [fst].
  destruct (validate_key ostr (strs ps)) as [s|e] eqn:Ep.
  2:{ unfold hash_set in H. rewrite bind_eq, Ep in H. discriminate. }
  unfold hash_set in H. rewrite bind_eq, Ep in H. cbn [lift] in H.
  assert (Hk : entry_key h t <> entry_key h s).
  { unfold entry_key. intros E. apply app_inv_head in E. injection E as ->. apply Hne. exact (C29_tuples_distinct ostr ps qs s Hp Hq Ep Eq). }
  destruct (set_spec (entry_key h s) v true w) as [(y & r & tx & _ & _ & _ & HW & _)|(e & r & HE & _)]; rewrite H in *; cbn [fst snd] in *; [|discriminate].
  assert (EF : find (entry_key h t) (w_drv w') = find (entry_key h t) (w_drv w)).
  { rewrite HW. unfold find, pget. destruct (w_drv w); cbn. rewrite dget_dset_other by exact Hk. reflexivity. }
  rewrite EF. reflexivity.
Qed.
Example C29_example : let w1 := snd (hash_set os0 hB (strs [u "a"; u "bc"]) (VInt 5) w0) in
  hash_set os0 hB (strs [u "a"; u "bc"]) (VInt 5) w0 = (Ok tt, w1) /\
  fst (hash_get os0 hB (strs [u "ab"; u "c"]) w1) = Ok VNone /\ fst (hash_get os0 hB (strs [u "a"; u "bc"]) w1) = Ok (VInt 5).
Proof. cbv zeta. vmsplit. Qed.
(** Keys that are not tuples of strings can collide: h[1] and h['1']; h['a'] and h[('a',)]; h[()] and h['']. *)
Theorem C29_aliases_refuted ostr h v w w' :
  hash_set ostr h (HOne (PVal (VInt 1))) v w = hash_set ostr h (one "1") v w /\
  hash_set ostr h (strs [u "a"]) v w' = hash_set ostr h (one "a") v w' /\
  hash_set ostr h (HTup []) v w' = hash_set ostr h (one "") v w'.
Proof. repeat split; reflexivity. Qed.

(** ** C30: a map with a default *)
(** What an access elsewhere leaves alone *)
Definition quiet (k : pystr) (w w' : world) : Prop :=
  dget k (dv_writes (w_drv w')) = dget k (dv_writes (w_drv w)) /\ dv_cache (w_drv w') = dv_cache (w_drv w) /\
  dv_disk (w_drv w') = dv_disk (w_drv w) /\ dv_bypass (w_drv w') = dv_bypass (w_drv w).
Lemma quiet_refl k w : quiet k w w. Proof. repeat split. Qed.
Lemma quiet_trans k a b c : quiet k a b -> quiet k b c -> quiet k a c.
Proof. unfold quiet. intuition congruence. Qed.
Lemma quiet_find k w w' : quiet k w w' -> find k (w_drv w') = find k (w_drv w).
Proof. intros (H1 & H2 & H3 & H4). unfold find, pget. rewrite H1, H2, H3, H4. reflexivity. Qed.
Lemma quiet_reads k x w : quiet k w (upd_reads x w).
Proof. unfold quiet, upd_reads. cbn [w_drv]. destruct (w_drv w); repeat split. Qed.
Lemma quiet_set k k' v b w : k <> k' -> quiet k w (snd (set k' v b w)).
Proof.
  intros Hk. destruct (set_spec k' v b w) as [(y & r & t & _ & _ & _ & H & _)|(e & r & _ & H)]; unfold quiet; rewrite H; destruct (w_drv w); cbn; repeat split.
  apply dget_dset_other, Hk.
Qed.
Lemma quiet_on_drv {A} k (m : st driver A) w : reads_only m -> quiet k w (snd (on_drv m w)).
Proof.
  intros H. unfold on_drv. destruct (H (w_drv w)) as (x & Hx). destruct (m (w_drv w)) as [r v]. cbn [fst snd] in *. subst. apply (quiet_reads k x w).
Qed.
Lemma run_access_quiet ostr c n ts a w : contract_name c -> variable_name n ->
  elsewhere ostr c n ts a -> quiet (c ++ ch "." :: n ++ ch ":" :: join (u ":") ts) w (run_access ostr a w).
Proof.
  intros Hc Hn Ha. destruct a as [c' n' t v|c' n'|c' n' k' v|c' n' k'|ord c' n' args]; cbn [run_access elsewhere] in *.
  - destruct Ha as [Hc' Hn']. remember (snd (var_set (var_decl c' n' t VNone) v w)) as W eqn:EW. unfold var_set in EW. cbn [v_type var_decl v_key] in EW.
    assert (HQ : quiet (c ++ ch "." :: n ++ ch ":" :: join (u ":") ts) w (snd (set (make_key c' n' []) v true w))).
    { apply quiet_set. intros E. symmetry in E. revert E. apply var_entry_neq; assumption. }
    destruct t as [t|].
    + rewrite bind_eq in EW. destruct (is_none v); [subst W; exact HQ|]. rewrite bind_eq in EW. cbn [lift] in EW.
      destruct (isinstance v t) as [[]|e]; cbn in EW; subst W; [exact HQ|apply quiet_refl|apply quiet_refl].
    + rewrite bind_eq in EW. subst W. exact HQ.
  - destruct (var_get_eq (var_decl c' n' None VNone) w) as (r & ->). apply quiet_reads.
  - destruct Ha as (Hc' & Hn' & Ha). unfold hash_set. rewrite bind_eq. destruct (validate_key ostr k') as [s|e] eqn:E; [|apply quiet_refl]. cbn [lift].
    apply quiet_set. rewrite entry_key_eq. intros EQ. apply entry_key_inj in EQ as (-> & -> & ES); try assumption.
    apply validate_spec in E as (ts' & Hv & ->). destruct Ha as [Ha|[Ha|Ha]]; [congruence|congruence|]. exact (Ha ts' Hv (eq_sym ES)).
  - destruct (validate_key ostr k') as [s|e] eqn:E; [|rewrite (hash_get_err _ _ _ _ _ E); apply quiet_refl].
    destruct (hash_get_eq ostr (hash_decl c' n' VNone) k' w s E) as (x & ->). apply quiet_reads.
  - unfold hash_all. rewrite bind_eq. destruct (prefix_for_args ostr (hash_decl c' n' VNone) args) as [p|e]; [|apply quiet_refl]. cbn [lift].
    apply quiet_on_drv. unfold values. apply ro_bind; [apply ro_items|]. intros _. apply ro_bind; [apply ro_items|]. intros i. apply ro_ret.
Qed.
Lemma run_accesses_quiet ostr c n ts l : contract_name c -> variable_name n -> Forall (elsewhere ostr c n ts) l -> forall w,
  quiet (c ++ ch "." :: n ++ ch ":" :: join (u ":") ts) w (run_accesses ostr l w).
Proof.
  intros Hc Hn H. induction H as [|a l Ha Hl IH]; intros w; [apply quiet_refl|]. cbn [run_accesses fold_left].
  eapply quiet_trans; [apply run_access_quiet; eassumption|]. apply IH.
Qed.
(** h[k] = v; accesses to other entries, variables and hashes; h[k] gives v back (decimals by value;
    floats as decimals). *)
Theorem C30_read_back ostr c n d k ts v w w' l :
  contract_name c -> variable_name n -> valid_key ostr k ts ->
  dv_bypass (w_drv w) = false -> v <> VNone -> storable v ->
  hash_set ostr (hash_decl c n d) k v w = (Ok tt, w') -> Forall (elsewhere ostr c n ts) l ->
  exists v1 v2, read_form v = Ok v1 /\ fst (hash_get ostr (hash_decl c n d) k (run_accesses ostr l w')) = Ok v2 /\ same v1 v2.
Proof.
  intros Hc Hn Hk Hb Hv Hs H Hl. assert (E : validate_key ostr k = Ok (join (u ":") ts)) by (apply validate_spec; eauto).
  unfold hash_set in H. rewrite bind_eq, E in H. cbn [lift] in H.
  destruct (set_spec (entry_key (hash_decl c n d) (join (u ":") ts)) v true w) as [(y & r & t & Hy & _ & _ & HW & _)|(e & r & HE & _)]; rewrite H in *; cbn [fst snd] in *; [|discriminate].
  pose proof (coerce_not_none _ _ Hy Hv) as Hy0. pose proof (storable_coerce _ _ Hs Hy) as Hys.
  assert (Hf : forall r0, y <> VFloat r0).
  { intros r0 ->. destruct v; cbn [coerce] in Hy; try discriminate; match type of Hy with context [cd_of_str ?z] => destruct (cd_of_str z) end; discriminate. }
  destruct (norm_dec_same y Hy0 Hys Hf) as (v2 & H2 & HS).
  exists y, v2. split; [exact Hy|]. split; [|exact HS].
  destruct (hash_get_eq ostr (hash_decl c n d) k (run_accesses ostr l w') _ E) as (x & ->). cbn [fst].
  rewrite entry_key_eq in *. rewrite (quiet_find _ _ _ (run_accesses_quiet ostr c n ts l Hc Hn Hl w')).
  rewrite (find_pending _ (w_drv w') y).
  - cbn [bindr]. unfold or_default. destruct y; try exact H2; congruence.
  - rewrite HW. destruct (w_drv w); exact Hb.
  - rewrite HW. destruct (w_drv w); cbn. apply dget_dset_same.
  - exact Hy0.
Qed.
(** An entry with no stored value and never written gives the default. *)
Theorem C30_default ostr c n d k ts disk0 r l :
  contract_name c -> variable_name n -> valid_key ostr k ts ->
  fresh_read disk0 (c ++ u "." ++ n ++ u ":" ++ join (u ":") ts) = Ok VNone ->
  (forall x, d <> VFloat x) -> (forall x, d <> VDec x) -> Forall (elsewhere ostr c n ts) l ->
  fst (hash_get ostr (hash_decl c n d) k (run_accesses ostr l (mkW (driver0 false disk0) r))) = Ok d.
Proof.
  intros Hc Hn Hk HD Hf Hd Hl. apply (proj2 (C28_accepted ostr c n d k ts Hk)); try assumption.
  rewrite get_result. change (c ++ u "." ++ n ++ u ":" ++ join (u ":") ts) with (c ++ ch "." :: n ++ ch ":" :: join (u ":") ts) in *.
  rewrite (quiet_find _ _ _ (run_accesses_quiet ostr c n ts l Hc Hn Hl _)). cbn [w_drv].
  unfold fresh_read in HD. rewrite get_result in HD. exact HD.
Qed.
(** Reading changes no entry. *)
Theorem C30_reads_are_pure ostr h k x w : same_reads w (snd (hash_get ostr h k w)) /\ same_reads w (snd (var_get x w)).
Proof.
  split.
  - destruct (validate_key ostr k) as [s|e] eqn:E; [|rewrite (hash_get_err _ _ _ _ _ E); apply same_reads_refl].
    destruct (hash_get_eq ostr h k w s E) as (r & ->). apply same_reads_upd.
  - destruct (var_get_eq x w) as (r & ->). apply same_reads_upd.
Qed.
Example C30_example : let w1 := snd (hash_set os0 hB (one "bob") (VFloat (u "2.5")) w0) in
  let l := [AHashSet (u "con_b") (u "h") (one "eve") (VInt 1); AVarSet (u "con_b") (u "v") None (VInt 1); AHashGet (u "con_b") (u "h") (one "bob")] in
  hash_set os0 hB (one "bob") (VFloat (u "2.5")) w0 = (Ok tt, w1) /\ Forall (elsewhere os0 (u "con_b") (u "h") [u "bob"]) l /\
  fst (hash_get os0 hB (one "bob") (run_accesses os0 l w1)) = Ok (VDec (mkfd false 25 (-1))).
Proof.
  cbv zeta. split; [vm_compute; reflexivity|]. split; [|vm_compute; reflexivity].
  assert (Hn : forall c s, has_char c s = false -> ~ In c s) by (intros c s; apply has_char_false).
  constructor; [|constructor; [|constructor; [exact I|constructor]]]; cbn [elsewhere]; (split; [apply Hn; reflexivity|]).
  2:{ apply Hn; reflexivity. }
  split; [apply Hn; reflexivity|]. right. right. intros ts' [H _ _ _ _] E. inversion H as [|? t ? ? Ht Hr]; subst. inversion Hr; subst. cbn in Ht. injection Ht as <-. discriminate.
Qed.

(** ** C31: separate by declaration *)
Definition addressed (c n key : pystr) : Prop :=
  (exists t d, key = v_key (var_decl c n t d)) \/ (exists d s, key = entry_key (hash_decl c n d) s).
Theorem C31_declarations_separate c n c' n' key :
  contract_name c -> contract_name c' -> variable_name n -> variable_name n' ->
  addressed c n key -> addressed c' n' key -> c = c' /\ n = n'.
Proof.
  intros H1 H2 H3 H4 [(t & d & ->)|(d & s & ->)] [(t' & d' & E)|(d' & s' & E)]; rewrite ?var_key_eq, ?entry_key_eq in E.
  - apply var_key_inj in E; assumption.
  - exfalso. revert E. apply var_entry_neq; assumption.
  - exfalso. symmetry in E. revert E. apply var_entry_neq; assumption.
  - apply entry_key_inj in E as (-> & -> & _); auto.
Qed.
Example C31_example : contract_name (u "con_a") /\ variable_name (u "balances") /\
  addressed (u "con_a") (u "balances") (u "con_a.balances:bob") /\ ~ addressed (u "con_a") (u "balance") (u "con_a.balances:bob").
Proof.
  assert (Hn : forall c s, has_char c s = false -> ~ In c s) by (intros c s; apply has_char_false).
  assert (HA : addressed (u "con_a") (u "balances") (u "con_a.balances:bob")) by (right; exists VNone, (u "bob"); reflexivity).
  split; [apply Hn; reflexivity|]. split; [apply Hn; reflexivity|]. split; [exact HA|].
  intros HB. assert (E : u "con_a" = u "con_a" /\ u "balances" = u "balance"); [|destruct E; discriminate].
  apply (C31_declarations_separate _ _ _ _ (u "con_a.balances:bob")); try assumption; apply Hn; reflexivity.
Qed.
(** With a dot in the contract's name two contracts can share an entry. *)
Theorem C31_dot_refuted : exists c n c' n' key, c <> c' /\ addressed c n key /\ addressed c' n' key.
Proof. exists (u "a"), (u "b.c"), (u "a.b"), (u "c"), (u "a.b.c"). split; [discriminate|]. split; left; exists None, VNone; reflexivity. Qed.

(** ** C33: foreign objects *)
Theorem C33_read_only x h ostr :
  (forall v w, fvar_set x v w = (Err EReference, w)) /\
  (forall k v w, fhash_set h k v w = (Err EReference, w)) /\
  (forall args w, fhash_clear h args w = (Err EException, w)) /\
  (forall w, same_reads w (snd (fvar_get x w))) /\ (forall k w, same_reads w (snd (fhash_get ostr h k w))).
Proof.
  repeat split; try reflexivity; intros; [exact (proj2 (C30_reads_are_pure ostr h (one "") x w))|exact (proj1 (C30_reads_are_pure ostr h k x w))].
Qed.
(** Reads give what the owning contract's object reads, if that was declared without a default value. *)
Theorem C33_reads_partial ostr c n t k w :
  fvar_get (fvar_decl c n) w = var_get (var_decl c n t VNone) w /\
  fhash_get ostr (fhash_decl c n) k w = hash_get ostr (hash_decl c n VNone) k w.
Proof. split; reflexivity. Qed.
(** With a default value they differ. *)
Theorem C33_default_refuted : exists c n d w, fst (var_get (var_decl c n None d) w) = Ok (VInt 5) /\ fst (fvar_get (fvar_decl c n) w) = Ok VNone /\
  fst (hash_get os0 (hash_decl c n d) (one "x") w) = Ok (VInt 5) /\ fst (fhash_get os0 (fhash_decl c n) (one "x") w) = Ok VNone.
Proof. exists (u "con_c"), (u "v"), (VInt 5), w0. vmsplit. Qed.
Example C33_example : fst (fhash_get os0 (fhash_decl (u "con_b") (u "h")) (strs [u "x"; u "y"]) w0) = Ok (VStr (u "old")).
Proof. vm_compute. reflexivity. Qed.

(** ** C34: typed variables *)
(** A value of another type raises and changes nothing; a successful set leaves a value of the type or
    None as the pending value. *)
Theorem C34_typed_partial c n t d v w w' r :
  var_set (var_decl c n (Some t) d) v w = (r, w') ->
  (v <> VNone -> isinstance v t <> Ok true -> (exists e, r = Err e) /\ w' = w) /\
  (r = Ok tt -> t <> TFloat -> exists y, dget (c ++ u "." ++ n) (dv_writes (w_drv w')) = Some y /\ (y = VNone \/ isinstance y t = Ok true)).
Proof.
  intros H. remember (var_set (var_decl c n (Some t) d) v w) as R eqn:ER. unfold var_set in ER. cbn [v_type var_decl v_key] in ER. rewrite bind_eq in ER. subst R.
  assert (HOK : forall R, set (make_key c n []) v true w = R -> fst R = Ok tt ->
     exists y, dget (c ++ u "." ++ n) (dv_writes (w_drv (snd R))) = Some y /\ coerce v = Ok y).
  { intros R <- HR. destruct (set_spec (make_key c n []) v true w) as [(y & q & tx & Hy & _ & _ & HW & _)|(e & q & HE & _)]; [|rewrite HR in HE; discriminate].
    exists y. split; [|exact Hy]. rewrite HW. change (c ++ u "." ++ n) with (make_key c n []). generalize (make_key c n []). intros key. destruct (w_drv w). apply dget_dset_same. }
  destruct (is_none v) eqn:Ev.
  - assert (v = VNone) by (destruct v; try discriminate; reflexivity). subst v. split; [congruence|]. intros -> _.
    destruct (HOK _ H eq_refl) as (y & Hy & Hc). exists y. split; [exact Hy|]. left. injection Hc as <-. reflexivity.
  - rewrite bind_eq in H. cbn [lift] in H. destruct (isinstance v t) as [b|e] eqn:Et.
    2:{ injection H as <- <-. split; [eauto|discriminate]. }
    unfold check in H. destruct b; cbn [lift assertr] in H.
    2:{ injection H as <- <-. split; [eauto|discriminate]. }
    split; [congruence|]. intros -> Ht. destruct (HOK _ H eq_refl) as (y & Hy & Hc). exists y. split; [exact Hy|]. right.
    destruct v; cbn [coerce] in Hc; try (injection Hc as <-; exact Et).
    + destruct t; try discriminate; [congruence|]. match type of Hc with context [cd_of_str ?z] => destruct (cd_of_str z) end; [|discriminate]. injection Hc as <-. reflexivity.
    + destruct t; try discriminate. match type of Hc with context [cd_of_str ?z] => destruct (cd_of_str z) end; [|discriminate]. injection Hc as <-. reflexivity.
Qed.
Example C34_example : let x := var_decl (u "con_a") (u "v") (Some TStr) VNone in
  var_set x (VInt 3) w0 = (Err EAssertion, w0) /\ fst (var_set x (VStr (u "ok")) w0) = Ok tt /\ fst (var_set x VNone w0) = Ok tt.
Proof. cbv zeta. vmsplit. Qed.
(** A variable declared with type float never holds a float: the value is turned into a decimal, and a
    decimal is refused. *)
Theorem C34_float_refuted : exists w w', var_set (var_decl (u "con_a") (u "f") (Some TFloat) VNone) (VFloat (u "1.5")) w = (Ok tt, w') /\
  fst (var_get (var_decl (u "con_a") (u "f") (Some TFloat) VNone) w') = Ok (VDec (mkfd false 15 (-1))) /\
  isinstance (VDec (mkfd false 15 (-1))) TFloat = Ok false /\
  var_set (var_decl (u "con_a") (u "f") (Some TFloat) VNone) (VDec (mkfd false 15 (-1))) w = (Err EAssertion, w).
Proof.
  exists w0, (snd (var_set (var_decl (u "con_a") (u "f") (Some TFloat) VNone) (VFloat (u "1.5")) w0)). vmsplit.
Qed.
(** After a commit a variable of type tuple holds a list. *)
Definition v34 : driver := snd (commit (w_drv (snd (var_set (var_decl (u "con_a") (u "f") (Some TTuple) VNone) (VTuple [VInt 1]) w0)))).
Theorem C34_tuple_refuted : exists w w' v, var_set (var_decl (u "con_a") (u "f") (Some TTuple) VNone) (VTuple [VInt 1]) w = (Ok tt, w') /\
  commit (w_drv w') = (Ok tt, v) /\ fst (get (u "con_a.f") v) = Ok (VList [VInt 1]) /\ isinstance (VList [VInt 1]) TTuple = Ok false.
Proof.
  exists w0, (snd (var_set (var_decl (u "con_a") (u "f") (Some TTuple) VNone) (VTuple [VInt 1]) w0)), v34. vmsplit.
Qed.

(** ** C35: events *)
Lemma foreach_check {S A} (p : A -> bool) l (s : S) : fst (foreach (fun a => check (p a)) l s) = Ok tt -> foreach (fun a => check (p a)) l s = (Ok tt, s) /\ forall a, In a l -> p a = true.
Proof.
  induction l as [|a l IH]; cbn [foreach].
  - intros _. split; [reflexivity|intros ? []].
  - rewrite bind_eq. unfold check at 1 3. destruct (p a) eqn:E; cbn [assertr lift fst]; [|discriminate]. intros H. destruct (IH H) as [H1 H2].
    split; [exact H1|]. intros b [<-|Hb]; auto.
Qed.
Lemma foreach_lift {S A} (f : A -> result unit) l (s : S) : (foreach (fun a => lift (f a)) l s = (Ok tt, s) /\ forall a, In a l -> f a = Ok tt) \/
  exists e, foreach (fun a => lift (f a)) l s = (Err e, s).
Proof.
  induction l as [|a l IH]; cbn [foreach].
  - left. split; [reflexivity|intros ? []].
  - rewrite bind_eq. cbn [lift]. destruct (f a) as [[]|e] eqn:E; [|right; eauto]. destruct IH as [[H1 H2]|H]; [left|right; exact H].
    split; [exact H1|]. intros b [<-|Hb]; auto.
Qed.
Lemma foreach_check_eq {S A} (p : A -> bool) l (s : S) : foreach (fun a => check (p a)) l s = foreach (fun a => lift (assertr (p a))) l s.
Proof. reflexivity. Qed.
Lemma log_decl_ok event params w e w' : log_decl event params w = (Ok e, w') ->
  w' = w /\ e = mkLE event (c_signer (get_state (rt_ctx (w_rt w)))) params /\ event_decl_ok params.
Proof.
  intros H. remember (log_decl event params w) as R eqn:ER. unfold log_decl in ER. rewrite bind_eq in ER. cbn [gets] in ER. rewrite bind_eq in ER.
  unfold check at 1 in ER. destruct (Nat.ltb_spec 0 (List.length params)) as [H0|H0]; cbn [lift assertr] in ER; [|subst R; discriminate].
  rewrite bind_eq in ER. unfold check at 1 in ER. destruct (Nat.leb_spec (List.length (filter (fun p => p_idx (snd p)) params)) 3) as [H3|H3]; cbn [lift assertr] in ER; [|subst R; discriminate].
  rewrite bind_eq in ER.
  assert (EQ : foreach (fun p => match p_types (snd p) with None => raise EKey | Some ts => check (forallb event_type ts) end) params w =
               foreach (fun p => lift (match p_types (snd p) with None => Err EKey | Some ts => assertr (forallb event_type ts) end)) params w).
  { clear. induction params as [|p l IH]; [reflexivity|]. cbn [foreach]. rewrite !bind_eq. destruct (p_types (snd p)) as [ts|]; [|reflexivity].
    unfold check. cbn [lift]. destruct (assertr (forallb event_type ts)); [exact IH|reflexivity]. }
  rewrite EQ in ER. destruct (foreach_lift (fun p : pystr * param => match p_types (snd p) with None => Err EKey | Some ts => assertr (forallb event_type ts) end) params w) as [[HF HA]|(e0 & HF)]; rewrite HF in ER; [|subst R; discriminate].
  rewrite ER in H. injection H as <- <-. split; [reflexivity|]. split; [reflexivity|]. split.
  - intros ->. cbn in H0. lia.
  - exact H3.
  - intros a p Hp. specialize (HA _ Hp). cbn [snd] in HA. destruct (p_types p) as [ts|]; [|discriminate]. exists ts. split; [reflexivity|].
    apply assertr_ok in HA. rewrite forallb_forall in HA. intros t Ht. specialize (HA t Ht). destruct t; try discriminate; cbn; auto 6.
Qed.
Lemma isinstance_any_ok v ts : isinstance_any v ts = Ok true -> exists t, In t ts /\ isinstance v t = Ok true.
Proof.
  induction ts as [|t ts IH]; cbn [isinstance_any]; [discriminate|]. destruct (isinstance v t) as [[]|e] eqn:E; cbn [bindr]; [intros _; exists t; split; [left; reflexivity|exact E]| |discriminate].
  intros H. destruct (IH H) as (t' & H1 & H2). exists t'. split; [right; exact H1|exact H2].
Qed.
Lemma seqr_select data l : forall r, seqr (fun p : pystr * param => do v <- getitem (fst p) data; Ok (fst p, v)) l = Ok r ->
  dkeys r = map fst l /\ forall (a : pystr) (v : pyval), In (a, v) r -> dget a data = Some v.
Proof.
  induction l as [|[a p] l IH]; intros r; cbn [seqr].
  - intros H. injection H as <-. split; [reflexivity|intros ? ? []].
  - cbn [fst]. unfold getitem at 1. destruct (dget a data) as [v|] eqn:E; [|discriminate]. cbn [bindr].
    match goal with |- context [seqr ?f l] => destruct (seqr f l) as [r0|] eqn:ES end; [|discriminate]. cbn [bindr]. intros H. injection H as <-. destruct (IH _ eq_refl) as [H1 H2].
    split; [cbn; f_equal; exact H1|]. intros b x [Eb|Hb]; [injection Eb as <- <-; exact E|exact (H2 b x Hb)].
Qed.
Lemma NoDup_fst_filter {V} (f : pystr * V -> bool) (d : dict V) : NoDup (dkeys d) -> NoDup (map fst (filter f d)).
Proof. apply NoDup_filter. Qed.
Lemma select_dget sel params data r : NoDup (dkeys params) -> select sel params data = Ok r -> forall a,
  dget a r = match dget a params with Some p => if sel p then dget a data else None | None => None end.
Proof.
  intros HN HS a. unfold select in HS. destruct (seqr_select _ _ _ HS) as [HK HV].
  assert (HD : NoDup (dkeys r)) by (rewrite HK; apply NoDup_fst_filter, HN).
  assert (HI : In a (dkeys r) <-> exists p, dget a params = Some p /\ sel p = true).
  { rewrite HK, in_map_iff. split.
    - intros ([a' p] & <- & Hi). apply filter_In in Hi as [Hi Hs]. exists p. split; [apply In_dget; assumption|exact Hs].
    - intros (p & Hp & Hs). exists (a, p). split; [reflexivity|]. apply filter_In. split; [apply dget_In, Hp|exact Hs]. }
  destruct (dget a r) as [v|] eqn:E.
  - pose proof (dget_In _ _ _ E) as Hi. assert (Hk : In a (dkeys r)) by (apply (in_map fst) in Hi; exact Hi).
    apply HI in Hk as (p & -> & ->). symmetry. apply HV, Hi.
  - apply dget_None in E. destruct (dget a params) as [p|] eqn:Ep; [|reflexivity]. destruct (sel p) eqn:Es; [|reflexivity].
    exfalso. apply E, HI. eauto.
Qed.
Lemma foreach_rt_only {A} (f : A -> st world unit) l : (forall a w, w_drv (snd (f a w)) = w_drv w /\ rt_ctx (w_rt (snd (f a w))) = rt_ctx (w_rt w)) -> forall w,
  w_drv (snd (foreach f l w)) = w_drv w /\ rt_ctx (w_rt (snd (foreach f l w))) = rt_ctx (w_rt w).
Proof.
  intros HF. induction l as [|a l IH]; intros w; [split; reflexivity|]. cbn [foreach]. rewrite bind_eq. destruct (HF a w) as [H1 H2].
  destruct (f a w) as [[[]|e] w1]; cbn [snd] in *; [|auto]. destruct (IH w1) as [H3 H4]. split; congruence.
Qed.
Lemma on_tracer_ctx {A} (m : st tracer A) r : rt_ctx (snd (on_tracer m r)) = rt_ctx r.
Proof. unfold on_tracer. destruct (m (rt_tracer r)). reflexivity. Qed.
Lemma deduct_ctx kl vl r : rt_ctx (snd (deduct_write kl vl r)) = rt_ctx r.
Proof.
  unfold deduct_write. destruct (tr_started (rt_tracer r)); [|reflexivity]. cbv zeta. destruct (Z.ltb _ WRITE_MAX); [|reflexivity].
  rewrite on_tracer_ctx. reflexivity.
Qed.
Lemma on_rt_drv {A} (m : st runtime A) w : w_drv (snd (on_rt m w)) = w_drv w.
Proof. unfold on_rt. destruct (m (w_rt w)). reflexivity. Qed.
Lemma pay_arg_only params kv w : w_drv (snd (pay_arg params kv w)) = w_drv w /\ rt_ctx (w_rt (snd (pay_arg params kv w))) = rt_ctx (w_rt w).
Proof.
  remember (snd (pay_arg params kv w)) as W eqn:EW. unfold pay_arg in EW. rewrite bind_eq in EW. cbn [lift] in EW.
  destruct (getitem (fst kv) params) as [p|]; [|subst W; split; reflexivity]. rewrite bind_eq in EW. cbn [lift] in EW.
  destruct (isinstance_any (snd kv) (types_of p)) as [b|]; [|subst W; split; reflexivity]. rewrite bind_eq in EW. unfold check in EW.
  destruct b; cbn [lift assertr] in EW; [|subst W; split; reflexivity]. rewrite bind_eq in EW. cbn [lift] in EW.
  destruct (encode_kv_len (fst kv) (snd kv)) as [[kl vl]|]; [|subst W; split; reflexivity]. subst W. split; [apply on_rt_drv|].
  unfold on_rt. pose proof (deduct_ctx kl vl (w_rt w)) as H. destruct (deduct_write kl vl (w_rt w)). exact H.
Qed.
(** What a recorded event must look like *)
Record event_ok (ostr : pyval -> pystr) (cx : cstate) (name : pystr) (signer : option pystr) (params : dict param) (data : dict pyval) (ev : event) : Prop := {
  eo_names : forall a, In a (dkeys data) <-> In a (dkeys params);
  eo_types : forall a p v, dget a params = Some p -> dget a data = Some v ->
     exists ts t, p_types p = Some ts /\ In t ts /\ isinstance v t = Ok true;
  eo_size : forall a v, dget a data = Some v -> exists t n, py_str ostr v = Ok t /\ utf8_len t = Ok n /\ n <= 1024;
  eo_head : ev_contract ev = c_this cx /\ ev_event ev = name /\ ev_signer ev = signer /\ ev_caller ev = c_caller cx;
  eo_indexed : forall a, dget a (ev_indexed ev) = match dget a params with Some p => if p_idx p then dget a data else None | None => None end;
  eo_data : forall a, dget a (ev_data ev) = match dget a params with Some p => if p_idx p then None else dget a data | None => None end;
  eo_max : List.length (ev_indexed ev) <= 3 }.
Theorem C35_events ostr name params data w0 e w0' w r w' :
  log_decl name params w0 = (Ok e, w0') -> NoDup (dkeys params) -> NoDup (dkeys data) ->
  log_emit ostr e data w = (r, w') ->
  match r with
  | Ok _ => exists ev, w_drv w' = set_events (dv_events (w_drv w) ++ [ev]) (w_drv w) /\
      event_ok ostr (get_state (rt_ctx (w_rt w))) name (c_signer (get_state (rt_ctx (w_rt w0)))) params data ev
  | Err _ => w_drv w' = w_drv w
  end.
Proof.
  intros HD HP HN H. apply log_decl_ok in HD as (_ & -> & [E1 E2 E3]). cbn [le_params le_event le_signer] in *.
  remember (log_emit ostr _ data w) as R eqn:ER. unfold log_emit in ER. cbn [le_params le_event le_signer] in ER.
  rewrite bind_eq in ER. cbn [gets] in ER. rewrite bind_eq in ER. unfold check at 1 in ER.
  destruct (Nat.eqb_spec (List.length data) (List.length params)) as [HL|HL]; cbn [lift assertr] in ER; [|rewrite ER in H; injection H as <- <-; reflexivity].
  rewrite bind_eq in ER. rewrite foreach_check_eq in ER.
  destruct (foreach_lift (fun kv : pystr * pyval => assertr (dmem (fst kv) params)) data w) as [[HF HA]|(e0 & HF)]; rewrite HF in ER; [|rewrite ER in H; injection H as <- <-; reflexivity].
  rewrite bind_eq in ER.
  destruct (foreach_lift (fun p => check_arg ostr data p) params w) as [[HF2 HB]|(e0 & HF2)]; rewrite HF2 in ER; [|rewrite ER in H; injection H as <- <-; reflexivity].
  rewrite bind_eq in ER. cbn [lift] in ER. destruct (select p_idx params data) as [ix|] eqn:EX; [|rewrite ER in H; injection H as <- <-; reflexivity].
  rewrite bind_eq in ER. cbn [lift] in ER. destruct (select (fun p => negb (p_idx p)) params data) as [dt|] eqn:ED; [|rewrite ER in H; injection H as <- <-; reflexivity].
  rewrite bind_eq in ER. destruct (foreach_rt_only (pay_arg params) ix (pay_arg_only params) w) as [W1 C1].
  destruct (foreach (pay_arg params) ix w) as [[[]|e1] w1] eqn:F1; cbn [snd] in *; [|rewrite ER in H; injection H as <- <-; exact W1].
  rewrite bind_eq in ER. destruct (foreach_rt_only (pay_arg params) dt (pay_arg_only params) w1) as [W2 C2].
  destruct (foreach (pay_arg params) dt w1) as [[[]|e2] w2] eqn:F2; cbn [snd] in *; [|rewrite ER in H; injection H as <- <-; congruence].
  rewrite ER in H. unfold on_drv, set_event, modify in H. injection H as <- <-.
  eexists. split. { cbn [w_drv]. rewrite W2, W1. reflexivity. }
  assert (HArg : forall a p v, dget a params = Some p -> dget a data = Some v ->
     (exists t, In t (types_of p) /\ isinstance v t = Ok true) /\ exists t n, py_str ostr v = Ok t /\ utf8_len t = Ok n /\ n <= 1024).
  { intros a p v Hp Hv. specialize (HB _ (dget_In _ _ _ Hp)). unfold check_arg in HB. cbn [fst snd] in HB.
    destruct (dmem a data); [|discriminate]. cbn [assertr bindr] in HB. unfold getitem in HB. rewrite Hv in HB. cbn [bindr] in HB.
    destruct (isinstance_any v (types_of p)) as [b|] eqn:EI; [|discriminate]. cbn [bindr] in HB. destruct b; [|discriminate]. cbn [assertr bindr] in HB.
    destruct (py_str ostr v) as [t|] eqn:ET; [|discriminate]. cbn [bindr] in HB. destruct (utf8_len t) as [n|] eqn:EL; [|discriminate]. cbn [bindr] in HB.
    apply assertr_ok, Nat.leb_le in HB. split; [apply isinstance_any_ok, EI|]. exists t, n. auto. }
  assert (HNames : forall a, In a (dkeys data) <-> In a (dkeys params)).
  { intros a. split; intros Hi.
    - apply in_map_iff in Hi as (kv & <- & Hi). specialize (HA _ Hi). apply assertr_ok, dmem_In in HA. exact HA.
    - apply in_map_iff in Hi as (p & <- & Hi). specialize (HB _ Hi). unfold check_arg in HB. destruct (dmem (fst p) data) eqn:EM; [|discriminate]. apply dmem_In, EM. }
  split; cbn [ev_contract ev_event ev_signer ev_caller ev_indexed ev_data].
  - exact HNames.
  - intros a p v Hp Hv. destruct (HArg a p v Hp Hv) as [(t & Ht & Hi) _]. destruct (E3 a p (dget_In _ _ _ Hp)) as (ts & Hts & _).
    exists ts, t. unfold types_of in Ht. rewrite Hts in *. auto.
  - intros a v Hv. destruct (dget a params) as [p|] eqn:Hp; [exact (proj2 (HArg a p v Hp Hv))|].
    exfalso. apply dget_None in Hp. apply Hp, HNames. apply dget_In in Hv. apply (in_map fst) in Hv. exact Hv.
  - auto.
  - exact (select_dget _ _ _ _ HP EX).
  - intros a. rewrite (select_dget _ _ _ _ HP ED). destruct (dget a params) as [p|]; [|reflexivity]. destruct (p_idx p); reflexivity.
  - unfold select in EX. destruct (seqr_select _ _ _ EX) as [HK _]. apply (f_equal (@List.length pystr)) in HK. unfold dkeys in HK.
    rewrite !map_length in HK. rewrite HK. exact E2.
Qed.
Definition ev35 : dict param := [(u "from", mkParam (Some [TStr]) true); (u "amount", mkParam (Some [TInt; TDec]) false)].
Example C35_example : exists e w1, log_decl (u "Transfer") ev35 w0 = (Ok e, w0) /\
  log_emit os0 e [(u "amount", VInt 5); (u "from", VStr (u "bob"))] w0 = (Ok tt, w1) /\
  dv_events (w_drv w1) = [mkEvent None (u "Transfer") None None [(u "from", VStr (u "bob"))] [(u "amount", VInt 5)]] /\
  fst (log_emit os0 e [(u "from", VStr (u "bob"))] w0) = Err EAssertion /\
  fst (log_emit os0 e [(u "amount", VStr (u "5")); (u "from", VStr (u "bob"))] w0) = Err EAssertion.
Proof.
  exists (mkLE (u "Transfer") None ev35).
  exists (snd (log_emit os0 (mkLE (u "Transfer") None ev35) [(u "amount", VInt 5); (u "from", VStr (u "bob"))] w0)). vmsplit.
Qed.
(** Declarations that are refused *)
Theorem C35_bad_declarations event params w e w' : log_decl event params w = (Ok e, w') -> event_decl_ok params /\ w' = w.
Proof. intros H. apply log_decl_ok in H as (-> & _ & H). auto. Qed.

(** ** C09: different keys, different places *)
(** True for names and parts that are not empty and contain none of ':' '.' '/'. *)
Theorem C09_different_places_partial c n ts c' n' ts' :
  contract_name c -> contract_name c' -> ~ In (ch ":") c -> ~ In (ch ":") c' ->
  (forall t, In t (n :: ts) -> plain_text t) -> (forall t, In t (n' :: ts') -> plain_text t) ->
  same_place (make_key c n ts) (make_key c' n' ts') = true -> c = c' /\ n = n' /\ ts = ts'.
Proof.
  intros H1 H2 H3 H4 H5 H6 H. rewrite same_place_eqb in H.
  destruct (place_eqb_spec (place_of (make_key c n ts)) (place_of (make_key c' n' ts'))) as [E|]; [|discriminate].
  rewrite !make_key_wkey in E. rewrite !place_wkey in E; try assumption; try discriminate. injection E as -> -> ->. auto.
Qed.
(** So for a commit of entries of such variables and hashes: every entry reads its own last pending
    value afterwards, and entries not pending read what they read before. *)
Definition plain_key (k : pystr) : Prop := exists c n ts, k = make_key c n ts /\ contract_name c /\ ~ In (ch ":") c /\ forall t, In t (n :: ts) -> plain_text t.
Lemma plain_key_ok k : plain_key k -> key_ok k.
Proof.
  intros (c & n & ts & -> & H1 & H2 & H3) E. rewrite make_key_wkey, parse_wkey in E; [|exact H1|exact H2|intros p Hp; apply (H3 p Hp)]. cbn [snd] in E.
  assert (Hn : n = []); [|destruct (H3 n (or_introl eq_refl)) as (Hx & _); congruence].
  destruct ts; cbn [join] in E; [exact E|]. apply app_eq_nil in E. apply E.
Qed.
Theorem C09_commit_partial v v' k :
  NoDup (dkeys (dv_writes v)) -> (forall k', In k' (dkeys (dv_writes v)) -> plain_key k') -> plain_key k -> commit v = (Ok tt, v') ->
  fresh_read (dv_disk v') k = match dget k (dv_writes v) with Some x => stored_form x | None => fresh_read (dv_disk v) k end.
Proof.
  intros HN HP HK HC. apply C03_separate_keys; try assumption; [apply plain_key_ok, HK|].
  intros k' Hi HS. destruct HK as (c & n & ts & -> & H1 & H2 & H3). destruct (HP k' Hi) as (c' & n' & ts' & -> & H4 & H5 & H6).
  destruct (C09_different_places_partial c n ts c' n' ts') as (-> & -> & ->); auto.
Qed.
Example C09_example : plain_key (make_key (u "con_b") (u "h") [u "x"; u "y"]) /\ plain_key (make_key (u "con_b") (u "h") [u "x"]) /\
  same_place (make_key (u "con_b") (u "h") [u "x"; u "y"]) (make_key (u "con_b") (u "h") [u "x"]) = false.
Proof.
  assert (Hn : forall c s, has_char c s = false -> ~ In c s) by (intros c s; apply has_char_false).
  assert (HT : forall l, forallb (fun t => negb (str_eqb t []) && negb (has_char (ch ":") t) && negb (has_char (ch ".") t) && negb (has_char (ch "/") t))%bool l = true -> forall t, In t l -> plain_text t).
  { intros l Hl t Ht. rewrite forallb_forall in Hl. specialize (Hl t Ht). rewrite !andb_true_iff, !negb_true_iff in Hl. destruct Hl as [[[A B] C] D].
    split; [apply str_eqb_neq, A|]. auto. }
  split; [|split; [|vm_compute; reflexivity]]; [exists (u "con_b"), (u "h"), [u "x"; u "y"]|exists (u "con_b"), (u "h"), [u "x"]];
    (split; [reflexivity|]; split; [apply Hn; reflexivity|]; split; [apply Hn; reflexivity|]; apply HT; reflexivity).
Qed.
(** A '/' in a hash key: h['a/b'] and h['a','b'] are different entries until the commit merges them;
    h[''] and the hash's own name, as a variable, too. *)
Definition w09 : world := snd (hash_set os0 hB (one "a/b") (VInt 2) (snd (hash_set os0 hB (strs [u "a"; u "b"]) (VInt 1) w0))).
Definition v09 : driver := snd (commit (w_drv w09)).
Theorem C09_slash_refuted :
  fst (hash_get os0 hB (strs [u "a"; u "b"]) w09) = Ok (VInt 1) /\ commit (w_drv w09) = (Ok tt, v09) /\
  fst (hash_get os0 hB (strs [u "a"; u "b"]) (mkW v09 rt0)) = Ok (VInt 2).
Proof. vmsplit. Qed.
Definition w09' : world := snd (hash_set os0 hB (one "") (VInt 2) (snd (var_set (var_decl (u "con_b") (u "h") None VNone) (VInt 1) w0))).
Definition v09' : driver := snd (commit (w_drv w09')).
Theorem C09_empty_refuted :
  fst (var_get (var_decl (u "con_b") (u "h") None VNone) w09') = Ok (VInt 1) /\ commit (w_drv w09') = (Ok tt, v09') /\
  fst (var_get (var_decl (u "con_b") (u "h") None VNone) (mkW v09' rt0)) = Ok (VInt 2).
Proof. vmsplit. Qed.
(** The same between hashes of one contract: hash 'x' entry 'y/z' and hash 'x/y' - and between any two
    keys whose texts agree when ':' is read as '/'. *)
Theorem C09_slash_general_refuted c a b : same_place (c ++ ch "." :: a ++ ch "/" :: b) (c ++ ch "." :: a ++ ch ":" :: b) = true.
Proof.
  rewrite same_place_eqb.
  assert (E : place_of (c ++ ch "." :: a ++ ch "/" :: b) = place_of (c ++ ch "." :: a ++ ch ":" :: b)); [|rewrite E; destruct (place_eqb_spec (place_of (c ++ ch "." :: a ++ ch ":" :: b)) (place_of (c ++ ch "." :: a ++ ch ":" :: b))); [reflexivity|congruence]].
  unfold place_of, parse_key.
  assert (HR : forall x, replace_char (ch ":") SLASH (x ++ ch "/" :: b) = replace_char (ch ":") SLASH (x ++ ch ":" :: b)).
  { intros x. unfold replace_char. rewrite !map_app. reflexivity. }
  destruct (split1 (ch ".") c) as [[p q]|] eqn:ES.
  - apply split1_Some in ES as [-> Hp]. rewrite <- !app_assoc. cbn [app]. rewrite !split1_app by exact Hp.
    replace (q ++ ch "." :: a ++ ch "/" :: b) with ((q ++ ch "." :: a) ++ ch "/" :: b) by (rewrite <- app_assoc; reflexivity).
    replace (q ++ ch "." :: a ++ ch ":" :: b) with ((q ++ ch "." :: a) ++ ch ":" :: b) by (rewrite <- app_assoc; reflexivity).
    rewrite HR. reflexivity.
  - apply split1_None in ES. rewrite !split1_app by exact ES. rewrite HR. reflexivity.
Qed.

(** ** C10: listing *)
Lemma set_order_nil ord : set_order ord -> forall l, ord l = [] <-> l = [].
Proof.
  intros H l. split; intros E.
  - destruct l as [|x l]; [reflexivity|]. exfalso. assert (In x (ord (x :: l))) by (apply H; left; reflexivity). rewrite E in H0. destruct H0.
  - subst. destruct (ord []) as [|x r] eqn:E; [reflexivity|]. exfalso. apply (H [] x). rewrite E. left. reflexivity.
Qed.
Lemma prefix_colon ostr c n d args p : prefix_for_args ostr (hash_decl c n d) args = Ok p -> In (ch ":") p /\ exists s, p = c ++ ch "." :: n ++ ch ":" :: s.
Proof.
  unfold prefix_for_args. destruct (validate_key ostr (HTup args)) as [m|]; [|discriminate]. cbn [bindr]. intros H. injection H as <-.
  split; [apply in_or_app; right; left; reflexivity|]. exists (if str_eqb m [] then [] else m ++ [DELIM]). cbn [hash_decl h_key make_key].
  rewrite <- !app_assoc. reflexivity.
Qed.
(** Exactly what a hash lists: the live pending entries and the live cached ones under the prefix (cached
    ones win).  Nothing durable is ever listed. *)
Theorem C10_hash_listing_partial ostr ord c n d args w its w' :
  set_order ord -> disk_no_colon (dv_disk (w_drv w)) -> NoDup (dkeys (dv_writes (w_drv w))) -> NoDup (dkeys (dv_cache (w_drv w))) ->
  hash_items ostr ord (hash_decl c n d) args w = (Ok its, w') ->
  w' = w /\ exists p, prefix_for_args ostr (hash_decl c n d) args = Ok p /\
  (forall k x, In (k, x) (dv_writes (w_drv w)) -> startswith k p = true -> x <> VNone ->
     (forall y, dget k (dv_cache (w_drv w)) = Some y -> y = VNone) -> dget k its = Some x) /\
  (forall k x, In (k, x) (dv_cache (w_drv w)) -> startswith k p = true -> x <> VNone -> dget k its = Some x) /\
  (forall k x, In (k, x) its -> startswith k p = true /\ x <> VNone /\ (In (k, x) (dv_writes (w_drv w)) \/ In (k, x) (dv_cache (w_drv w)))).
Proof.
  intros HO HD HN1 HN2 H. unfold hash_items in H. rewrite bind_eq in H. destruct (prefix_for_args ostr (hash_decl c n d) args) as [p|] eqn:EP; [|discriminate].
  cbn [lift] in H. destruct (prefix_colon _ _ _ _ _ _ EP) as [HP _]. unfold on_drv in H.
  destruct (items_colon ord p (w_drv w) (set_order_nil _ HO) HD HP) as [(e & _ & HI)|HI]; rewrite HI in H; [discriminate|]. injection H as <- <-.
  split; [destruct w; reflexivity|]. exists p. split; [reflexivity|].
  pose proof (fun k => dget_listed p k (w_drv w) HN1 HN2) as HL. split; [|split].
  - intros k x Hi Hs Hx HC. rewrite HL, !dget_live by assumption. rewrite (In_dget _ _ _ HN1 Hi), Hs.
    destruct (dget k (dv_cache (w_drv w))) as [y|]; [rewrite (HC y eq_refl)|]; cbn [andb negb is_none]; destruct x; try reflexivity; congruence.
  - intros k x Hi Hs Hx. rewrite HL, !dget_live by assumption. rewrite (In_dget _ _ _ HN2 Hi), Hs. destruct x; try reflexivity; congruence.
  - intros k x Hi.
    assert (HND : NoDup (dkeys (listed p (w_drv w)))) by (unfold listed; apply NoDup_dupdate, NoDup_dupdate; constructor).
    apply (In_dget _ _ _ HND) in Hi. rewrite HL, !dget_live in Hi by assumption.
    assert (HX : forall dd, match dget k dd with Some x0 => if (startswith k p && negb (is_none x0))%bool then Some x0 else None | None => None end = Some x ->
      startswith k p = true /\ x <> VNone /\ In (k, x) dd).
    { intros dd. destruct (dget k dd) as [y|] eqn:Ed; [|discriminate]. destruct (startswith k p); [|discriminate]. destruct (is_none y) eqn:En; [discriminate|].
      intros E. injection E as <-. split; [reflexivity|]. split; [intros ->; discriminate|]. apply dget_In, Ed. }
    destruct (match dget k (dv_cache (w_drv w)) with Some x0 => if (startswith k p && negb (is_none x0))%bool then Some x0 else None | None => None end) as [z|] eqn:Ez.
    + injection Hi as ->. destruct (HX _ Ez) as (A & B & C). auto.
    + destruct (HX _ Hi) as (A & B & C). auto.
Qed.
(** After a commit Hash.all() and the items of every hash are empty, whatever was stored. *)
Theorem C10_committed_invisible_refuted ostr ord c n d args v v' r xs w' :
  set_order ord -> disk_no_colon (dv_disk v) -> commit v = (Ok tt, v') ->
  hash_all ostr ord (hash_decl c n d) args (mkW v' r) = (Ok xs, w') -> xs = [].
Proof.
  intros HO HD HC H. destruct (commit_no_colon _ _ HD HC) as (HD' & HW & HCa). unfold hash_all in H. rewrite bind_eq in H.
  destruct (prefix_for_args ostr (hash_decl c n d) args) as [p|] eqn:EP; [|discriminate]. cbn [lift] in H. destruct (prefix_colon _ _ _ _ _ _ EP) as [HP _].
  unfold on_drv, values in H. cbn [w_drv w_rt] in H. rewrite bind_eq in H.
  destruct (items_colon ord p v' (set_order_nil _ HO) HD' HP) as [(e & _ & HI)|HI]; rewrite HI in H; [discriminate|].
  rewrite bind_eq, HI in H. cbn [ret] in H. injection H as <- <-. unfold listed. rewrite HW, HCa. reflexivity.
Qed.
Definition v10 : driver := snd (commit (w_drv (snd (hash_set os0 hB (one "bob") (VInt 1) w0)))).
Theorem C10_refuted : commit (w_drv (snd (hash_set os0 hB (one "bob") (VInt 1) w0))) = (Ok tt, v10) /\
  fst (hash_get os0 hB (one "bob") (mkW v10 rt0)) = Ok (VInt 1) /\ fst (hash_all os0 (fun l => l) hB [] (mkW v10 rt0)) = Ok [].
Proof. vmsplit. Qed.
(** Before the commit the entry is listed - but if an older value is still cached, with that value. *)
Definition v10s : driver := snd (hard_apply 1 (w_drv (snd (hash_set os0 hB (one "bob") (VInt 1) w0)))).
Definition w10s : world := snd (hash_set os0 hB (one "bob") (VInt 2) (mkW v10s rt0)).
Theorem C10_stale_refuted : fst (hash_all os0 (fun l => l) hB [] (snd (hash_set os0 hB (one "bob") (VInt 1) w0))) = Ok [VInt 1] /\
  fst (hash_get os0 hB (one "bob") w10s) = Ok (VInt 2) /\ fst (hash_all os0 (fun l => l) hB [] w10s) = Ok [VInt 1].
Proof. vmsplit. Qed.
(** A listing can invent entries: with a variable whose name starts with the contract's own name. *)
Definition v10g : driver := snd (commit (w_drv (snd (var_set (var_decl (u "con_a") (u "con_ax") None VNone) (VInt 3) w0)))).
Theorem C10_invented_refuted : fst (items (fun l => l) (u "con_a") v10g) = Ok [(u "con_ax", VNone)].
Proof. vm_compute. reflexivity. Qed.
(** disk_no_colon holds in every reachable state: of an empty directory, and every commit keeps it. *)
Theorem C10_reachable v v' : disk_no_colon [] /\ (disk_no_colon (dv_disk v) -> commit v = (Ok tt, v') -> disk_no_colon (dv_disk v')).
Proof. split; [intros ? ? []|]. intros HD HC. apply (commit_no_colon _ _ HD HC). Qed.
Example C10_example : disk_no_colon d0 /\ set_order (fun l => l) /\
  fst (hash_items os0 (fun l => l) hB [] (snd (hash_set os0 hB (one "bob") (VInt 1) w0))) = Ok [(u "con_b.h:bob", VInt 1)].
Proof. split; [apply commit_all_no_colon; intros ? ? []|]. split; [intros l k; reflexivity|vm_compute; reflexivity]. Qed.

(** ** C11: clear *)
(** clear touches only pending entries of the hash: every other key's pending value stays, and nothing
    cached or durable changes. *)
Lemma foreach_delete_writes l : forall w w', foreach delete l w = (Ok tt, w') ->
  (forall k, dget k (dv_writes (w_drv w')) = if str_mem k l then Some VNone else dget k (dv_writes (w_drv w))) /\
  dv_cache (w_drv w') = dv_cache (w_drv w) /\ dv_disk (w_drv w') = dv_disk (w_drv w) /\ dv_bypass (w_drv w') = dv_bypass (w_drv w).
Proof.
  induction l as [|x l IH]; intros w w'; cbn [foreach].
  - intros H. injection H as <-. repeat split.
  - rewrite bind_eq. unfold delete at 1. destruct (set_spec x VNone false w) as [(y & r & t & Hy & _ & HS & HW & _)|(e & r & HE & _)].
    2:{ destruct (set x VNone false w) as [[[]|e'] w1]; cbn [fst] in HE; [discriminate|]. intros H; discriminate. }
    rewrite HS. injection Hy as <-. intros H. destruct (IH _ _ H) as (H1 & H2 & H3 & H4). rewrite HW in *. clear HW HS.
    split; [|destruct (w_drv w); auto]. intros k. rewrite H1. cbn [str_mem existsb]. fold (str_mem k l). destruct (str_mem k l).
    + rewrite orb_true_r. reflexivity.
    + rewrite orb_false_r. replace (dv_writes (set_txn t (set_writes (dset x VNone (dv_writes (w_drv w))) (set_reads r (w_drv w))))) with (dset x VNone (dv_writes (w_drv w))) by (destruct (w_drv w); reflexivity).
      rewrite dget_dset. reflexivity.
Qed.
Theorem C11_only_own_entries ostr ord c n d args w w' :
  set_order ord -> disk_no_colon (dv_disk (w_drv w)) -> NoDup (dkeys (dv_writes (w_drv w))) -> NoDup (dkeys (dv_cache (w_drv w))) ->
  hash_clear ostr ord (hash_decl c n d) args w = (Ok tt, w') ->
  (forall k, dget k (dv_writes (w_drv w')) <> dget k (dv_writes (w_drv w)) -> exists s, k = c ++ u "." ++ n ++ u ":" ++ s) /\
  dv_cache (w_drv w') = dv_cache (w_drv w) /\ dv_disk (w_drv w') = dv_disk (w_drv w).
Proof.
  intros HO HD HN1 HN2 H. unfold hash_clear in H. rewrite bind_eq in H. destruct (hash_items ostr ord (hash_decl c n d) args w) as [[its|] w1] eqn:EI; [|discriminate].
  destruct (C10_hash_listing_partial _ _ _ _ _ _ _ _ _ HO HD HN1 HN2 EI) as (-> & p & EP & _ & _ & HL).
  destruct (foreach_delete_writes _ _ _ H) as (H1 & H2 & H3 & _). split; [|auto]. intros k Hk. rewrite H1 in Hk.
  destruct (str_mem k (dkeys its)) eqn:EM; [|congruence]. apply str_mem_spec in EM. apply in_map_iff in EM as ([k' x] & <- & Hi). cbn [fst].
  destruct (HL _ _ Hi) as (Hs & _). apply startswith_spec in Hs as (q & ->). destruct (prefix_colon _ _ _ _ _ _ EP) as [_ (s & ->)].
  exists (s ++ q). change (u "." ++ n ++ u ":" ++ s ++ q) with (ch "." :: n ++ ch ":" :: s ++ q). rewrite <- app_assoc. cbn [app]. rewrite <- app_assoc. reflexivity.
Qed.
(** After clear() and a commit every entry that was pending or cached reads as missing - provided no
    other pending key shares its place. *)
Theorem C11_cleared_partial ostr ord c n d args w w' v' k x p :
  set_order ord -> disk_no_colon (dv_disk (w_drv w)) -> NoDup (dkeys (dv_writes (w_drv w))) -> NoDup (dkeys (dv_cache (w_drv w))) ->
  hash_clear ostr ord (hash_decl c n d) args w = (Ok tt, w') -> NoDup (dkeys (dv_writes (w_drv w'))) -> commit (w_drv w') = (Ok tt, v') ->
  prefix_for_args ostr (hash_decl c n d) args = Ok p -> startswith k p = true -> x <> VNone ->
  (In (k, x) (dv_writes (w_drv w)) \/ In (k, x) (dv_cache (w_drv w))) -> key_ok k ->
  (forall k', In k' (dkeys (dv_writes (w_drv w'))) -> same_place k k' = true -> k' = k) ->
  fresh_read (dv_disk v') k = Ok VNone.
Proof.
  intros HO HD HN1 HN2 H HN3 HC EP HS Hx Hin Hk Hsep. unfold hash_clear in H. rewrite bind_eq in H.
  destruct (hash_items ostr ord (hash_decl c n d) args w) as [[its|] w1] eqn:EI; [|discriminate].
  destruct (C10_hash_listing_partial _ _ _ _ _ _ _ _ _ HO HD HN1 HN2 EI) as (-> & p' & EP' & HL1 & HL2 & _).
  assert (p' = p) by congruence. subst p'. destruct (foreach_delete_writes _ _ _ H) as (H1 & _).
  rewrite (C03_separate_keys (w_drv w') v' k HN3 HC Hk Hsep).
  assert (Hi : In k (dkeys its)).
  { destruct Hin as [Hin|Hin].
    - destruct (dget k (dv_cache (w_drv w))) as [y|] eqn:Ey.
      + destruct (is_none y) eqn:En.
        * assert (E : dget k its = Some x).
          { apply (HL1 k x Hin HS Hx). intros z Hz. rewrite Ey in Hz. injection Hz as <-. destruct y; try discriminate; reflexivity. }
          apply dget_In, (in_map fst) in E. exact E.
        * assert (E : dget k its = Some y) by (apply (HL2 k y); [apply dget_In, Ey|exact HS|intros ->; discriminate]).
          apply dget_In, (in_map fst) in E. exact E.
      + assert (E : dget k its = Some x) by (apply (HL1 k x Hin HS Hx); intros z Hz; rewrite Ey in Hz; discriminate).
        apply dget_In, (in_map fst) in E. exact E.
    - assert (E : dget k its = Some x) by (apply (HL2 k x); assumption). apply dget_In, (in_map fst) in E. exact E. }
  rewrite H1. apply str_mem_spec in Hi. rewrite Hi. reflexivity.
Qed.
(** Entries that are only durable survive: after a commit clear() does nothing at all. *)
Theorem C11_durable_survives_refuted ostr ord c n d args v v' r w' :
  set_order ord -> disk_no_colon (dv_disk v) -> commit v = (Ok tt, v') ->
  hash_clear ostr ord (hash_decl c n d) args (mkW v' r) = (Ok tt, w') -> w' = mkW v' r.
Proof.
  intros HO HD HC H. destruct (commit_no_colon _ _ HD HC) as (HD' & HW & HCa). unfold hash_clear, hash_items in H. rewrite bind_eq in H.
  rewrite bind_eq in H. destruct (prefix_for_args ostr (hash_decl c n d) args) as [p|] eqn:EP; [|discriminate]. cbn [lift] in H. destruct (prefix_colon _ _ _ _ _ _ EP) as [HP _].
  unfold on_drv in H. cbn [w_drv w_rt] in H.
  destruct (items_colon ord p v' (set_order_nil _ HO) HD' HP) as [(e & _ & HI)|HI]; rewrite HI in H; [discriminate|].
  replace (listed p v') with (@nil (pystr * pyval)) in H by (unfold listed; rewrite HW, HCa; reflexivity). cbn in H. injection H as <-. reflexivity.
Qed.
Definition w11 : world := snd (hash_clear os0 (fun l => l) hB [] (mkW v10 rt0)).
Definition v11 : driver := snd (commit (w_drv w11)).
Theorem C11_refuted : hash_clear os0 (fun l => l) hB [] (mkW v10 rt0) = (Ok tt, w11) /\ commit (w_drv w11) = (Ok tt, v11) /\
  fst (hash_get os0 hB (one "bob") (mkW v11 rt0)) = Ok (VInt 1).
Proof. vmsplit. Qed.
Definition w11e : world := snd (hash_clear os0 (fun l => l) hB [] (snd (hash_set os0 hB (one "bob") (VInt 1) w0))).
Example C11_example : hash_clear os0 (fun l => l) hB [] (snd (hash_set os0 hB (one "bob") (VInt 1) w0)) = (Ok tt, w11e) /\
  fst (hash_get os0 hB (one "bob") w11e) = Ok VNone /\ fst (hash_get os0 hB (strs [u "x"; u "y"]) w11e) = Ok (VStr (u "old")).
Proof. vmsplit. Qed.

Print Assumptions C28_hash_keys.
Print Assumptions C28_accepted.
Print Assumptions C29_tuples_distinct.
Print Assumptions C29_no_interference.
Print Assumptions C29_aliases_refuted.
Print Assumptions C30_read_back.
Print Assumptions C30_default.
Print Assumptions C30_reads_are_pure.
Print Assumptions C31_declarations_separate.
Print Assumptions C31_dot_refuted.
Print Assumptions C33_read_only.
Print Assumptions C33_reads_partial.
Print Assumptions C33_default_refuted.
Print Assumptions C34_typed_partial.
Print Assumptions C34_float_refuted.
Print Assumptions C34_tuple_refuted.
Print Assumptions C35_events.
Print Assumptions C35_bad_declarations.
Print Assumptions C09_different_places_partial.
Print Assumptions C09_commit_partial.
Print Assumptions C09_slash_refuted.
Print Assumptions C09_empty_refuted.
Print Assumptions C09_slash_general_refuted.
Print Assumptions C10_hash_listing_partial.
Print Assumptions C10_committed_invisible_refuted.
Print Assumptions C10_refuted.
Print Assumptions C10_stale_refuted.
Print Assumptions C10_invented_refuted.
Print Assumptions C10_reachable.
Print Assumptions C11_only_own_entries.
Print Assumptions C11_cleared_partial.
Print Assumptions C11_durable_survives_refuted.
Print Assumptions C11_refuted.
