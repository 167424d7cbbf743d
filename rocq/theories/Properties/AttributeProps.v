(** * C121: a contract's functions are what its code says *)
From Verif Require Import Model.Base Model.State Model.Ast Model.Linter Model.Compiler Model.Attributes.
From Verif Require Import Spec.LintSpec Proofs.BaseFacts Properties.LintProps Properties.CompProps.
From Coq Require Import Lia.
Local Open Scope string_scope.
Local Open Scope list_scope.

Section Facts.
  Variable V : Type.
  Notation P := (process V).
  (** nothing but what clean_up will remove is loaded, under one entry each: so it is at every moment (below) *)
  Definition tracked (p : P) : Prop := forall n m, entry n (mods V p) = Some m -> In n (loaded_modules V p).
  Lemma entry_change {A} n k (f : A -> A) l : entry n (change k f l) = if str_eqb n k then option_map f (entry n l) else entry n l.
  Proof.
    induction l as [|[m x] l IH]; cbn [change entry]; [destruct (str_eqb n k); reflexivity|].
    destruct (str_eqb k m) eqn:E1; cbn [entry].
    - apply str_eqb_eq in E1. subst m. destruct (str_eqb n k); reflexivity.
    - destruct (str_eqb n m) eqn:E2; [|exact IH]. apply str_eqb_eq in E2. subst m.
      destruct (str_eqb n k) eqn:E3; [|reflexivity]. apply str_eqb_eq in E3. subst k. rewrite str_eqb_refl in E1. discriminate E1.
  Qed.
  Lemma bound_unbind a b d : bound V a (unbind V b d) = if str_eqb a b then None else bound V a d.
  Proof.
    induction d as [|[c v] d IH]; cbn [unbind filter bound fst]; [destruct (str_eqb a b); reflexivity|]. fold (unbind V b d).
    destruct (str_eqb b c) eqn:E1; cbn [negb bound].
    - apply str_eqb_eq in E1. subst c. rewrite IH. destruct (str_eqb a b); reflexivity.
    - rewrite IH. destruct (str_eqb a c) eqn:E2; [|reflexivity]. apply str_eqb_eq in E2. subst c.
      destruct (str_eqb a b) eqn:E3; [|reflexivity]. apply str_eqb_eq in E3. subst b. rewrite str_eqb_refl in E1. discriminate E1.
  Qed.
  Lemma bound_bind a b v d : bound V a (bind V b v d) = if str_eqb a b then Some v else bound V a d.
  Proof. unfold bind. cbn [bound]. rewrite bound_unbind. destruct (str_eqb a b); reflexivity. Qed.
  Lemma entry_filter_none {A} n (l : list (pystr * A)) q : (forall x, entry n l = Some x -> q n = false) -> entry n (filter (fun m => q (fst m)) l) = None.
  Proof.
    induction l as [|[m x] l IH]; intros H; cbn [filter entry fst] in *; [reflexivity|].
    destruct (str_eqb n m) eqn:E.
    - apply str_eqb_eq in E. subst m. rewrite (H x eq_refl). apply IH. intros y _. exact (H x eq_refl).
    - destruct (q m); cbn [entry]; [rewrite E|]; apply IH, H.
  Qed.
  Lemma steps_app code l1 l2 (p : P) : steps V code (l1 ++ l2) p = steps V code l2 (steps V code l1 p).
  Proof. unfold steps. apply fold_left_app. Qed.

  Section OneStep.
    Variable code : pystr -> option (namespace V).
    Lemma tracked_step s (p : P) : tracked p -> tracked (step V code s p).
    Proof.
      intros T n m. destruct s as [k|k a v|k a|o a v|o a]; cbn [step mods loaded_modules].
      - unfold import_. destruct (entry k (mods V p)) eqn:E; [apply T|]. destruct (code k); [|apply T]. unfold exec_module. cbn [mods loaded_modules entry].
        destruct (str_eqb n k) eqn:Q; intros H; apply in_or_app; [right; left; symmetry; apply str_eqb_eq, Q|left; eapply T, H].
      - rewrite entry_change. destruct (str_eqb n k); [|apply T]. destruct (entry n (mods V p)) as [x|] eqn:E; [intros _; exact (T n x E)|discriminate].
      - rewrite entry_change. destruct (str_eqb n k); [|apply T]. destruct (entry n (mods V p)) as [x|] eqn:E; [intros _; exact (T n x E)|discriminate].
      - apply T.
      - apply T.
    Qed.
    Lemma tracked_steps l (p : P) : tracked p -> tracked (steps V code l p).
    Proof. revert p. induction l as [|s l IH]; intros p T; [exact T|]. apply IH, tracked_step, T. Qed.
    Lemma cleaned l (p : P) : tracked p -> forall n, entry n (mods V (transaction V code l p)) = None.
    Proof.
      intros T n. unfold transaction, clean_up. cbn [mods]. apply (entry_filter_none n _ (fun m => negb (str_mem m (loaded_modules V (steps V code l p))))).
      intros x H. apply Bool.negb_false_iff, str_mem_spec. eapply (tracked_steps l p T), H.
    Qed.
    (** the scope of what is loaded is what its code defines *)
    Definition own_code (p : P) : Prop := forall n m, entry n (mods V p) = Some m -> code n = Some (scope V m).
    Lemma own_step s (p : P) : own_code p -> own_code (step V code s p).
    Proof.
      intros T n m. destruct s as [k|k a v|k a|o a v|o a]; cbn [step mods].
      - unfold import_. destruct (entry k (mods V p)) eqn:E; [apply T|]. destruct (code k) as [d|] eqn:D; [|apply T]. unfold exec_module. cbn [mods entry].
        destruct (str_eqb n k) eqn:Q; [|apply T]. apply str_eqb_eq in Q. subst k. intros H. injection H as <-. exact D.
      - rewrite entry_change. destruct (str_eqb n k); [|apply T]. destruct (entry n (mods V p)) as [x|] eqn:E; [|discriminate]. cbn [option_map]. intros H. injection H as <-. exact (T n x E).
      - rewrite entry_change. destruct (str_eqb n k); [|apply T]. destruct (entry n (mods V p)) as [x|] eqn:E; [|discriminate]. cbn [option_map]. intros H. injection H as <-. exact (T n x E).
      - apply T.
      - apply T.
    Qed.
    Lemma own_steps l (p : P) : own_code p -> own_code (steps V code l p).
    Proof. revert p. induction l as [|s l IH]; intros p T; [exact T|]. apply IH, own_step, T. Qed.
    (** no statement of [l] sets or deletes the attribute a of n *)
    Definition leaves (n a : pystr) (l : list (statement V)) : Prop := (forall v, ~ In (SetAttr n a v) l) /\ ~ In (DelAttr n a) l.
    Lemma leaves_step s n a (p : P) : leaves n a [s] -> own_code p -> (forall x, entry n (mods V p) = Some x -> bound V a (visible V x) = bound V a (scope V x)) ->
      forall x, entry n (mods V (step V code s p)) = Some x -> bound V a (visible V x) = bound V a (scope V x).
    Proof.
      intros [L1 L2] O H x. destruct s as [k|k b v|k b|o b v|o b]; cbn [step mods].
      - unfold import_. destruct (entry k (mods V p)) eqn:E; [apply H|]. destruct (code k) as [d|]; [|apply H]. unfold exec_module. cbn [mods entry].
        destruct (str_eqb n k); [|apply H]. intros Q. injection Q as <-. reflexivity.
      - rewrite entry_change. destruct (str_eqb n k) eqn:E; [|apply H]. apply str_eqb_eq in E. subst k. destruct (entry n (mods V p)) as [y|] eqn:F; [|discriminate]. cbn [option_map].
        intros Q. injection Q as <-. cbn [visible scope]. rewrite bound_bind. destruct (str_eqb a b) eqn:E; [|exact (H y eq_refl)].
        apply str_eqb_eq in E. subst b. exfalso. apply (L1 v). left. reflexivity.
      - rewrite entry_change. destruct (str_eqb n k) eqn:E; [|apply H]. apply str_eqb_eq in E. subst k. destruct (entry n (mods V p)) as [y|] eqn:F; [|discriminate]. cbn [option_map].
        intros Q. injection Q as <-. cbn [visible scope]. rewrite bound_unbind. destruct (str_eqb a b) eqn:E; [|exact (H y eq_refl)].
        apply str_eqb_eq in E. subst b. exfalso. apply L2. left. reflexivity.
      - apply H.
      - apply H.
    Qed.
    Lemma leaves_steps l n a : leaves n a l -> forall p : P, own_code p -> (forall x, entry n (mods V p) = Some x -> bound V a (visible V x) = bound V a (scope V x)) ->
      forall x, entry n (mods V (steps V code l p)) = Some x -> bound V a (visible V x) = bound V a (scope V x).
    Proof.
      induction l as [|s l IH]; intros [L1 L2] p O H; [exact H|]. apply (IH (conj (fun v I => L1 v (or_intror I)) (fun I => L2 (or_intror I)))).
      - apply own_step, O.
      - apply leaves_step; [|exact O|exact H]. split; [intros v [I|[]]; apply (L1 v); left; exact I|intros [I|[]]; apply L2; left; exact I].
    Qed.
    Lemma loaded_step s n (p : P) : entry n (mods V p) <> None -> entry n (mods V (step V code s p)) <> None.
    Proof.
      intros H. destruct s as [k|k b v|k b|o b v|o b]; cbn [step mods]; try exact H.
      - unfold import_. destruct (entry k (mods V p)) eqn:E; [exact H|]. destruct (code k) as [d|]; [|exact H]. unfold exec_module. cbn [mods entry]. destruct (str_eqb n k); [discriminate|exact H].
      - rewrite entry_change. destruct (str_eqb n k); [|exact H]. destruct (entry n (mods V p)); [discriminate|exact H].
      - rewrite entry_change. destruct (str_eqb n k); [|exact H]. destruct (entry n (mods V p)); [discriminate|exact H].
    Qed.
    Lemma loaded_after l n d : In (Import n) l -> code n = Some d -> forall p : P, entry n (mods V (steps V code l p)) <> None.
    Proof.
      intros I D. induction l as [|s l IH]; [destruct I|]. intros p.
      assert (K : forall l (q : P), entry n (mods V q) <> None -> entry n (mods V (steps V code l q)) <> None).
      { clear. intros l. induction l as [|s l IH]; intros q H; [exact H|]. apply IH, loaded_step, H. }
      destruct I as [->|I]; [|apply IH, I]. apply (K l (step V code (Import n) p)). cbn [step]. unfold import_. destruct (entry n (mods V p)) eqn:E; [rewrite E; discriminate|].
      rewrite D. unfold exec_module. cbn [mods entry]. rewrite str_eqb_refl. discriminate.
    Qed.
  End OneStep.

  (** ** What holds *)
  (** A process between two transactions, in any history: each transaction has its own stored code and its own statements *)
  Definition history (h : list ((pystr -> option (namespace V)) * list (statement V))) (p : P) : P :=
    fold_left (fun q t => transaction V (fst t) (snd t) q) h p.
  (** the process starts with no contract loaded *)
  Definition fresh_process (p : P) : Prop := mods V p = [] /\ loaded_modules V p = [].
  Lemma history_empty h p : fresh_process p -> forall n, entry n (mods V (history h p)) = None.
  Proof.
    intros [M L]. assert (T : tracked p) by (intros n m; rewrite M; discriminate). assert (N : forall n, entry n (mods V p) = None) by (rewrite M; reflexivity).
    clear M L. revert p T N. induction h as [|[c l] h IH]; intros p T N; [exact N|]. unfold history. cbn [fold_left fst snd]. apply IH.
    - intros n m H. rewrite (cleaned c l p T) in H. discriminate H.
    - intros n. apply cleaned, T.
  Qed.

  (** Whatever other contracts did, in this transaction and in earlier ones, the functions of a contract find under each name what
      its own stored code defines. *)
  Theorem C121_own_calls_partial h p code l n a : fresh_process p -> In (Import n) l -> forall d, code n = Some d ->
    seen_by_itself V n a (steps V code l (history h p)) = bound V a d.
  Proof.
    intros F I d D. unfold seen_by_itself. pose proof (loaded_after code l n d I D (history h p)) as E.
    assert (O : own_code code (history h p)) by (intros k m H; rewrite (history_empty h p F) in H; discriminate H).
    destruct (entry n _) as [m|] eqn:Q; [|congruence]. pose proof (own_steps code l _ O n m Q) as R. rewrite D in R. injection R as ->. reflexivity.
  Qed.
  (** What others call is what the stored code defines, in every transaction in which nobody assigns to that attribute: assignments
      in earlier transactions are forgotten with the modules.  Missing: transactions with such an assignment, for which it is
      false (C121_refuted). *)
  Theorem C121_unassigned_partial h p code l n a : fresh_process p -> In (Import n) l -> (forall v, ~ In (SetAttr n a v) l) -> ~ In (DelAttr n a) l ->
    forall d, code n = Some d -> seen_by_others V n a (steps V code l (history h p)) = bound V a d.
  Proof.
    intros F I L1 L2 d D. unfold seen_by_others. pose proof (loaded_after code l n d I D (history h p)) as E.
    assert (O : own_code code (history h p)) by (intros k m H; rewrite (history_empty h p F) in H; discriminate H).
    destruct (entry n _) as [m|] eqn:Q; [|congruence].
    rewrite (leaves_steps code l n a (conj L1 L2) _ O (fun x H => ltac:(rewrite (history_empty h p F) in H; discriminate H)) m Q).
    pose proof (own_steps code l _ O n m Q) as R. rewrite D in R. injection R as ->. reflexivity.
  Qed.

  (** ** What does not *)
  (** The last assignment to an attribute of an imported contract is what every other contract calls from then on *)
  Theorem C121_others_call_the_last_assigned h p code l1 l2 n a v : fresh_process p -> In (Import n) l1 -> (exists d, code n = Some d) ->
    (forall w, ~ In (SetAttr n a w) l2) -> ~ In (DelAttr n a) l2 ->
    seen_by_others V n a (steps V code (l1 ++ SetAttr n a v :: l2) (history h p)) = Some v.
  Proof.
    intros F I [d D] L1 L2. rewrite steps_app. change (steps V code (SetAttr n a v :: l2) ?q) with (steps V code l2 (step V code (SetAttr n a v) q)).
    pose proof (loaded_after code l1 n d I D (history h p)) as E. set (q := steps V code l1 (history h p)) in *.
    assert (S : seen_by_others V n a (step V code (SetAttr n a v) q) = Some v /\ entry n (mods V (step V code (SetAttr n a v) q)) <> None).
    { split; [|apply loaded_step, E]. unfold seen_by_others. cbn [step mods]. rewrite entry_change, str_eqb_refl. destruct (entry n (mods V q)) as [m|]; [|congruence].
      cbn [option_map visible]. rewrite bound_bind, str_eqb_refl. reflexivity. }
    revert S. generalize (step V code (SetAttr n a v) q). clear - L1 L2. induction l2 as [|s l IH]; intros q [S N]; [exact S|].
    change (steps V code (s :: l) q) with (steps V code l (step V code s q)). apply IH.
    - intros w K. apply (L1 w). right. exact K.
    - intros K. apply L2. right. exact K.
    - split; [|apply loaded_step, N]. unfold seen_by_others in *. destruct s as [k|k b w|k b|o b w|o b]; cbn [step mods]; try exact S.
      + unfold import_. destruct (entry k (mods V q)) eqn:E; [exact S|]. destruct (code k); [|exact S]. unfold exec_module. cbn [mods entry].
        destruct (str_eqb n k) eqn:Q; [|exact S]. apply str_eqb_eq in Q. subst k. congruence.
      + rewrite entry_change. destruct (str_eqb n k) eqn:Q; [|exact S]. apply str_eqb_eq in Q. subst k. destruct (entry n (mods V q)) as [m|]; [|congruence]. cbn [option_map visible].
        rewrite bound_bind. destruct (str_eqb a b) eqn:Q; [|exact S]. apply str_eqb_eq in Q. subst b. destruct (L1 w). left. reflexivity.
      + rewrite entry_change. destruct (str_eqb n k) eqn:Q; [|exact S]. apply str_eqb_eq in Q. subst k. destruct (entry n (mods V q)) as [m|]; [|congruence]. cbn [option_map visible].
        rewrite bound_unbind. destruct (str_eqb a b) eqn:Q; [|exact S]. apply str_eqb_eq in Q. subst b. destruct L2. left. reflexivity.
  Qed.
  Definition leaves_shared (o a : pystr) (l : list (statement V)) : Prop := (forall v, ~ In (SetShared o a v) l) /\ ~ In (DelShared o a) l.
  Lemma shared_steps code l o a : leaves_shared o a l -> forall p : P, provided V o a (steps V code l p) = provided V o a p.
  Proof.
    induction l as [|s l IH]; intros [L1 L2] p; [reflexivity|]. change (steps V code (s :: l) p) with (steps V code l (step V code s p)).
    rewrite IH by (split; [intros v K; apply (L1 v); right; exact K|intros K; apply L2; right; exact K]). unfold provided.
    destruct s as [k|k b w|k b|k b w|k b]; cbn [step shared]; try reflexivity.
    - unfold import_. destruct (entry k (mods V p)); [reflexivity|]. destruct (code k); reflexivity.
    - rewrite entry_change. destruct (str_eqb o k) eqn:Q; [|reflexivity]. apply str_eqb_eq in Q. subst k. destruct (entry o (shared V p)) as [d|]; [|reflexivity]. cbn [option_map].
      rewrite bound_bind. destruct (str_eqb a b) eqn:Q; [|reflexivity]. apply str_eqb_eq in Q. subst b. destruct (L1 w). left. reflexivity.
    - rewrite entry_change. destruct (str_eqb o k) eqn:Q; [|reflexivity]. apply str_eqb_eq in Q. subst k. destruct (entry o (shared V p)) as [d|]; [|reflexivity]. cbn [option_map].
      rewrite bound_unbind. destruct (str_eqb a b) eqn:Q; [|reflexivity]. apply str_eqb_eq in Q. subst b. destruct L2. left. reflexivity.
  Qed.
  (** What is assigned to an attribute of the standard library stays for every later transaction of the process, of any contract *)
  Theorem C121_library_keeps_it h1 h2 p code l1 l2 o a v : provided V o a (history h1 p) <> None ->
    leaves_shared o a l2 -> Forall (fun t => leaves_shared o a (snd t)) h2 ->
    provided V o a (history (h1 ++ (code, l1 ++ SetShared o a v :: l2) :: h2) p) = Some v.
  Proof.
    intros H L2 L3. unfold history at 1. rewrite fold_left_app. cbn [fold_left fst snd]. fold (history h1 p).
    assert (K : forall t c (q : P), leaves_shared o a t -> provided V o a (transaction V c t q) = provided V o a q) by (intros t c q L; apply (shared_steps c t o a L)).
    assert (E : provided V o a (transaction V code (l1 ++ SetShared o a v :: l2) (history h1 p)) = Some v).
    { unfold transaction. change (provided V o a (clean_up V ?q)) with (provided V o a q). rewrite steps_app.
      change (steps V code (SetShared o a v :: l2) ?q) with (steps V code l2 (step V code (SetShared o a v) q)). rewrite (shared_steps code l2 o a L2).
      unfold provided. cbn [step shared]. rewrite entry_change, str_eqb_refl.
      assert (N : entry o (shared V (steps V code l1 (history h1 p))) <> None).
      { assert (N : entry o (shared V (history h1 p)) <> None) by (unfold provided in H; destruct (entry o _); [discriminate|congruence]). revert N. generalize (history h1 p). clear.
        induction l1 as [|s l IH]; intros q N; [exact N|]. apply IH. destruct s as [k|k b w|k b|k b w|k b]; cbn [step shared]; try exact N.
        - unfold import_. destruct (entry k (mods V q)); [exact N|]. destruct (code k); exact N.
        - rewrite entry_change. destruct (str_eqb o k); [|exact N]. destruct (entry o (shared V q)); [discriminate|exact N].
        - rewrite entry_change. destruct (str_eqb o k); [|exact N]. destruct (entry o (shared V q)); [discriminate|exact N]. }
      destruct (entry o _) as [d|]; [|congruence]. cbn [option_map]. rewrite bound_bind, str_eqb_refl. reflexivity. }
    revert E. generalize (transaction V code (l1 ++ SetShared o a v :: l2) (history h1 p)). revert L3. clear - K.
    induction h2 as [|[c t] h IH]; intros L q E; [exact E|]. cbn [fold_left fst snd]. inversion L; subst. apply IH; [assumption|]. rewrite K; assumption.
  Qed.
End Facts.

(** ** Contract code can do this *)
Definition attribute_at (z : Z) (x a : string) (c : string) : ast := Node "Attribute" (Some z) [("value", name_at z x); ("attr", Ident (u a)); ("ctx", Node c None [])].
(** con_token.transfer = con_evil.transfer *)
Definition patch_token : ast := assign_at 4 (attribute_at 4 "con_token" "transfer" "Store") (attribute_at 4 "con_evil" "transfer" "Load").
(** hashlib.sha3 = con_evil.transfer and Variable.get = con_evil.transfer *)
Definition patch_hashlib : ast := assign_at 5 (attribute_at 5 "hashlib" "sha3" "Store") (attribute_at 5 "con_evil" "transfer" "Load").
Definition patch_variable : ast := assign_at 6 (attribute_at 6 "Variable" "get" "Store") (attribute_at 6 "con_evil" "transfer" "Load").
Definition patching : ast := module [import_at 1 "con_token"; import_at 1 "con_evil"; def_at 3 "f" none_args [patch_token; patch_hashlib; patch_variable] (export_at 2) Absent].
Definition patching' : ast := match fst (parse (u "con_x") python true patching comp0) with Ok t => t | Err _ => Absent end.

(** a token with a function transfer, a contract with another one; hashlib and Variable as the process starts *)
Definition two_codes (n : pystr) : option (namespace nat) :=
  if str_eqb n (u "con_token") then Some [(u "transfer", 1)] else if str_eqb n (u "con_evil") then Some [(u "transfer", 2)] else None.
Definition started : process nat := mkProcess nat [] [] [(u "hashlib", [(u "sha3", 10); (u "sha256", 11)]); (u "Variable", [(u "get", 12); (u "set", 13)])].
(** what f does *)
Definition f_does : list (statement nat) := [Import (u "con_token"); Import (u "con_evil"); SetAttr (u "con_token") (u "transfer") 2; SetShared (u "hashlib") (u "sha3") 2; SetShared (u "Variable") (u "get") 2].

(** "What others call is what the stored code of the contract says; what the standard library provides is always the same": the
    linter accepts the assignments, the compiler leaves them as they are, and after them con_token.transfer is the other contract's
    function for the rest of the transaction, and hashlib.sha3 and Variable.get are for the rest of the process. *)
Theorem C121_refuted : accepted python patching /\ fst (parse (u "con_x") python true patching comp0) = Ok patching' /\
  In patch_token (nodes patching') /\ In patch_hashlib (nodes patching') /\ In patch_variable (nodes patching') /\
  seen_by_others nat (u "con_token") (u "transfer") (steps nat two_codes f_does started) = Some 2 /\ two_codes (u "con_token") = Some [(u "transfer", 1)] /\
  (forall h, Forall (fun t => leaves_shared nat (u "hashlib") (u "sha3") (snd t)) h ->
     provided nat (u "hashlib") (u "sha3") (history nat ((two_codes, f_does) :: h) started) = Some 2) /\
  provided nat (u "hashlib") (u "sha3") started = Some 10.
Proof.
  split; [apply (fine_ok patching); vm_compute; reflexivity|]. split; [vm_compute; reflexivity|]. split; [vm_compute; auto 40|]. split; [vm_compute; auto 40|]. split; [vm_compute; auto 40|].
  split; [vm_compute; reflexivity|]. split; [vm_compute; reflexivity|]. split; [|vm_compute; reflexivity]. intros h H.
  refine (C121_library_keeps_it nat [] h started two_codes [Import (u "con_token"); Import (u "con_evil"); SetAttr (u "con_token") (u "transfer") 2] [SetShared (u "Variable") (u "get") 2] (u "hashlib") (u "sha3") 2 _ _ H).
  - vm_compute. discriminate.
  - split; [intros v [K|[]]; vm_compute in K; discriminate K|intros [K|[]]; discriminate K].
Qed.
(** the other contract's calls of its own functions, and the next transaction, are not affected (C121_own_calls_partial, C121_unassigned_partial) *)
Example C121_next : fresh_process nat started /\
  seen_by_itself nat (u "con_token") (u "transfer") (steps nat two_codes f_does started) = Some 1 /\
  seen_by_others nat (u "con_token") (u "transfer") (steps nat two_codes [Import (u "con_token")] (history nat [(two_codes, f_does)] started)) = Some 1.
Proof. split; [split; reflexivity|]. split; vm_compute; reflexivity. Qed.
