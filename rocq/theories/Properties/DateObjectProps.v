(** * C123: a date is one value *)
From Verif Require Import Model.Base Model.Dec Model.Time Model.TimeText Model.Value Model.Encoder Model.State Model.Ast Model.Linter Model.Compiler Model.DateObject.
From Verif Require Import Spec.TimeSpec Spec.EncSpec Spec.LintSpec Proofs.BaseFacts Proofs.JsonFacts Proofs.ParseFacts Proofs.EncFacts Proofs.TimeFacts Properties.TimeProps Properties.LintProps Properties.CompProps Properties.AttributeProps.
From Coq Require Import Lia.
Local Open Scope list_scope.

(** assignments to the attributes of an object, first to last *)
Definition assigned (l : list (nat * pyval)) (o : date_object) : date_object := fold_left (fun a b => assign (fst b) (snd b) a) l o.
(** ** Specification: what was assigned last to the i-th attribute, [v] if nothing was *)
Fixpoint last_to (i : nat) (v : pyval) (l : list (nat * pyval)) : pyval :=
  match l with [] => v | (j, w) :: l' => last_to i (if Nat.eqb i j then w else v) l' end.
(** the seven attributes of an object made for [t] and assigned to *)
Definition attributes (t : datetime) (l : list (nat * pyval)) : list pyval :=
  map (fun i => last_to i (VInt (nth i (dt_fields t) 0%Z)) l) [0; 1; 2; 3; 4; 5; 6].

Lemma replace_nth i j v l d : (i < List.length l)%nat -> nth i (replace j v l) d = if Nat.eqb i j then v else nth i l d.
Proof.
  revert i j. induction l as [|x l IH]; intros i j L; [cbn in L; lia|]. destruct j as [|j]; destruct i as [|i]; cbn [replace nth Nat.eqb]; try reflexivity.
  apply IH. cbn in L. lia.
Qed.
Lemma replace_length j v l : List.length (replace j v l) = List.length l.
Proof. revert j. induction l as [|x l IH]; intros [|j]; cbn [replace List.length]; try reflexivity. rewrite IH. reflexivity. Qed.
Lemma assigned_nth l : forall o i, List.length (shown o) = 7%nat -> (i < 7)%nat -> nth i (shown (assigned l o)) VNone = last_to i (nth i (shown o) VNone) l /\ List.length (shown (assigned l o)) = 7%nat.
Proof.
  induction l as [|[j w] l IH]; intros o i L I; [auto|]. unfold assigned. cbn [fold_left fst snd]. fold (assigned l (assign j w o)).
  destruct (IH (assign j w o) i) as [A B]; [unfold assign; cbn [shown]; rewrite replace_length; exact L|exact I|]. split; [|exact B]. rewrite A. cbn [last_to]. unfold assign. cbn [shown].
  rewrite replace_nth by (rewrite L; exact I). reflexivity.
Qed.
Lemma assigned_shown t l : shown (assigned l (mkDate t (map VInt (dt_fields t)))) = attributes t l.
Proof.
  set (o := mkDate t (map VInt (dt_fields t))). assert (L : List.length (shown o) = 7%nat) by reflexivity.
  assert (K : forall i, (i < 7)%nat -> nth i (shown (assigned l o)) VNone = last_to i (VInt (nth i (dt_fields t) 0%Z)) l).
  { intros i I. rewrite (proj1 (assigned_nth l o i L I)). f_equal. do 7 (destruct i as [|i]; [reflexivity|]). lia. }
  pose proof (proj2 (assigned_nth l o 0 L ltac:(lia))) as M. unfold attributes. cbn [map].
  rewrite <- !K by lia. destruct (shown (assigned l o)) as [|a [|b [|c [|d [|e [|f [|g [|? ?]]]]]]]]; cbn [List.length] in M; try discriminate M. reflexivity.
Qed.
Lemma assigned_wrapped l : forall o, wrapped (assigned l o) = wrapped o.
Proof. induction l as [|[j w] l IH]; intros o; [reflexivity|]. unfold assigned. cbn [fold_left]. fold (assigned l (assign (fst (j, w)) (snd (j, w)) o)). rewrite IH. reflexivity. Qed.
Lemma new_date_ok y mo d h mi s us o : new_date y mo d h mi s us = Ok o -> exists t, vdt t /\ dt_fields t = [y; mo; d; h; mi; s; us] /\ o = mkDate t (map VInt (dt_fields t)).
Proof.
  unfold new_date, mk_datetime. destruct (negb _); [discriminate|]. cbv zeta. destruct (datetime_valid _) eqn:V; [|discriminate]. cbn [bindr]. intros H. injection H as <-.
  eexists. split; [exact V|]. split; reflexivity.
Qed.
Lemma written_ints o zs : shown o = map VInt zs -> Forall int_ok zs -> written o = Ok (print_json (JObj [(u "__time__", jints zs)])).
Proof.
  intros E H. unfold written. rewrite E. assert (K : seqr to_json (map VInt zs) = Ok (map JInt zs)); [|rewrite K; reflexivity].
  clear E. induction H as [|z zs Hz _ IH]; [reflexivity|]. cbn [map seqr to_json]. apply int_ok_str in Hz. rewrite Hz. cbn [bindr]. rewrite IH. reflexivity.
Qed.
Lemma read_ints zs : Forall int_ok zs -> decode (Some (print_json (JObj [(u "__time__", jints zs)]))) = match (do t <- time_of_val (VList (map VInt zs)); Ok (VTime t)) with Err EJSONDecode => Ok VNone | r => r end.
Proof.
  intros H. unfold decode. rewrite loads_print.
  - rewrite of_json_single, of_json_jints. cbn [bindr]. rewrite as_object_time. reflexivity.
  - apply jok_single; [apply text_ok_ascii; intros c Hc; cbn in Hc; lia|]. apply jok_jints, H.
Qed.
Lemma vdt_small t : vdt t -> Forall int_ok (dt_fields t).
Proof.
  intros Hv. unfold vdt, datetime_valid in Hv. assert (dt_day t <= 31)%Z by (pose proof (dim_bounds (dt_year t) (dt_month t)); lia).
  unfold dt_fields. repeat (apply Forall_cons; [apply int_ok_small; lia|]). apply Forall_nil.
Qed.
(** the object that is a date *)
Definition date_of (t : datetime) : date_object := mkDate t (map VInt (dt_fields t)).

(** ** What holds *)
(** A date nobody assigned to is stored as what it is: reading it back gives the same object *)
Theorem C123_untouched_partial y mo d h mi s us o : new_date y mo d h mi s us = Ok o -> exists x, written o = Ok x /\ read_back x = Ok (Some o) /\ same_date o o = true.
Proof.
  intros H. apply new_date_ok in H. destruct H as (t & V & _ & ->). exists (print_json (JObj [(u "__time__", jints (dt_fields t))])). split; [|split].
  - apply written_ints; [reflexivity|apply vdt_small, V].
  - unfold read_back. rewrite read_ints by (apply vdt_small, V). rewrite time_of_fields, vdt_mk by exact V. reflexivity.
  - unfold same_date, dt_eq, dt_compare. cbn [wrapped]. generalize (dt_fields t). clear. intros l. assert (E : lex_compare l l = Eq) by (induction l as [|z l IH]; [reflexivity|cbn [lex_compare]; rewrite Z.compare_refl; exact IH]). rewrite E. reflexivity.
Qed.
(** So is the sum of a date and a duration, whatever was assigned to the date *)
Theorem C123_sums o l d r : later_by (assigned l o) d = Ok r -> later_by o d = Ok r /\ exists t, r = date_of t.
Proof.
  unfold later_by. rewrite assigned_wrapped. intros H. split; [exact H|]. destruct (dt_add (wrapped o) d) as [t|e]; [|discriminate H]. injection H as <-. exists t. reflexivity.
Qed.
(** ** What does not *)
(** Assignments do not change what a date is compared by, subtracted by and printed as ... *)
Theorem C123_compared_as_before o l p : same_date (assigned l o) p = same_date o p /\ same_date p (assigned l o) = same_date p o /\ earlier (assigned l o) p = earlier o p /\ earlier p (assigned l o) = earlier p o /\
  apart (assigned l o) p = apart o p /\ apart p (assigned l o) = apart p o /\ as_text (assigned l o) = as_text o.
Proof. unfold same_date, earlier, apart, as_text. rewrite !assigned_wrapped. repeat split. Qed.
(** ... by the instants they were made for, *)
Theorem C123_by_the_instant y mo d h mi s us o l n y' mo' d' h' mi' s' us' p l' m :
  new_date y mo d h mi s us = Ok o -> instant (mkdt y mo d h mi s us) n -> new_date y' mo' d' h' mi' s' us' = Ok p -> instant (mkdt y' mo' d' h' mi' s' us') m ->
  same_date (assigned l o) (assigned l' p) = Z.eqb n m /\ earlier (assigned l o) (assigned l' p) = Z.ltb n m /\
  (exists t, apart (assigned l o) (assigned l' p) = Ok t /\ has_total t ((n - m) / 1000000)%Z) /\ as_text (assigned l o) = dt_str (mkdt y mo d h mi s us).
Proof.
  intros Ho In Hp Im. assert (K : forall a b c e f g k o, new_date a b c e f g k = Ok o -> wrapped o = mkdt a b c e f g k /\ is_datetime (mkdt a b c e f g k)).
  { clear. intros a b c e f g k o H. unfold new_date in H. destruct (mk_datetime a b c e f g k) as [t|x] eqn:M; [|discriminate H]. cbn [bindr] in H. injection H as <-. cbn [wrapped].
    assert (E : t = mkdt a b c e f g k); [|subst t; split; [reflexivity|exact (isdt _ _ _ _ _ _ _ _ M)]]. unfold mk_datetime in M. destruct (negb _); [discriminate M|]. cbv zeta in M. destruct (datetime_valid _) in M; [|discriminate M]. congruence. }
  destruct (K _ _ _ _ _ _ _ _ Ho) as [Wo Do]. destruct (K _ _ _ _ _ _ _ _ Hp) as [Wp Dp]. unfold same_date, earlier, apart, as_text. rewrite !assigned_wrapped, Wo, Wp.
  destruct (C25_order _ _ n m Do Dp In Im) as (A & _ & B & _). split; [exact B|]. split; [exact A|]. split; [exact (C27_difference_floor _ _ n m Do Dp In Im)|reflexivity].
Qed.
(** ... but they are what is stored: if the attributes are a date then, that date is read back, and else reading raises. *)
Theorem C123_stored_as_assigned y mo d h mi s us o l zs : new_date y mo d h mi s us = Ok o -> attributes (mkdt y mo d h mi s us) l = map VInt zs -> Forall int_ok zs ->
  exists x, written (assigned l o) = Ok x /\
    (forall t, is_datetime t -> zs = dt_fields t -> read_back x = Ok (Some (date_of t))) /\
    ((forall t, is_datetime t -> zs <> dt_fields t) -> exists e, read_back x = Err e).
Proof.
  intros H A I. apply new_date_ok in H. destruct H as (t & V & F & ->). assert (Et : t = mkdt y mo d h mi s us) by (destruct t; unfold dt_fields in F; cbn in F; congruence). rewrite <- Et in A. clear Et F.
  exists (print_json (JObj [(u "__time__", jints zs)])). split; [apply written_ints; [rewrite assigned_shown; exact A|exact I]|]. unfold read_back. rewrite read_ints by exact I. split.
  - intros t' V' ->. apply is_datetime_valid in V'. rewrite time_of_fields, vdt_mk by exact V'. reflexivity.
  - intros N. unfold attributes in A. cbn [map] in A. destruct zs as [|z1 [|z2 [|z3 [|z4 [|z5 [|z6 [|z7 [|? ?]]]]]]]]; try discriminate A. clear A.
    change (time_of_val (VList (map VInt [z1; z2; z3; z4; z5; z6; z7]))) with (mk_datetime z1 z2 z3 z4 z5 z6 z7). destruct (mk_datetime z1 z2 z3 z4 z5 z6 z7) as [t'|e] eqn:M.
    + exfalso. pose proof (isdt _ _ _ _ _ _ _ _ M) as V'. apply (N t' V'). clear N. unfold mk_datetime in M. destruct (negb _); [discriminate M|]. cbv zeta in M. destruct (datetime_valid _) in M; [|discriminate M].
      injection M as <-. reflexivity.
    + unfold mk_datetime in M. destruct (negb _); [injection M as <-; exists EOverflowError; reflexivity|]. cbv zeta in M. destruct (datetime_valid _) in M; [discriminate M|]. injection M as <-. exists EValue. reflexivity.
Qed.

(** ** Whose date it is *)
(** the assignments among the statements, whoever made them *)
Definition assignments (l : list (pystr * now_statement)) : list (nat * pyval) := flat_map (fun s => match snd s with AssignNow i v => [(i, v)] | StoreNow _ => [] end) l.
Lemma now_run_object l : forall q, fst (now_run l q) = assigned (assignments l) (fst q).
Proof.
  induction l as [|[c s] l IH]; intros q; [reflexivity|]. unfold now_run. cbn [fold_left fst snd]. fold (now_run l (now_step c s q)). rewrite IH. destruct s; reflexivity.
Qed.
Lemma now_run_written l : forall q, exists w, snd (now_run l q) = w ++ snd q.
Proof.
  induction l as [|[c s] l IH]; intros q; [exists []; reflexivity|]. unfold now_run. cbn [fold_left fst snd]. fold (now_run l (now_step c s q)). destruct (IH (now_step c s q)) as [w ->].
  destruct s as [i v|k]; cbn [now_step snd]; [exists w; reflexivity|]. exists (w ++ [(c, k, written (fst q))]). rewrite <- app_assoc. reflexivity.
Qed.
(** What a contract stores as now has the assignments all contracts made before it, in this transaction and the earlier ones with the same environment ... *)
Theorem C123_shared_refuted l1 c k l2 o w : exists after, snd (now_run (l1 ++ (c, StoreNow k) :: l2) (o, w)) = after ++ (c, k, written (assigned (assignments l1) o)) :: snd (now_run l1 (o, w)).
Proof.
  unfold now_run. rewrite fold_left_app. cbn [fold_left fst snd]. fold (now_run l1 (o, w)). set (q := now_step c (StoreNow k) (now_run l1 (o, w))). fold (now_run l2 q).
  destruct (now_run_written l2 q) as [a ->]. exists a. subst q. cbn [now_step snd]. rewrite now_run_object. reflexivity.
Qed.
(** ... so what one contract assigns decides about the entries of another: here con_evil makes every entry unreadable that con_bank writes now to, and nobody can see it in the comparisons of con_bank. *)
Theorem C123_unreadable_refuted y mo d h mi s us o k w : new_date y mo d h mi s us = Ok o ->
  let q := now_run [(u "con_evil", AssignNow 1 (VInt 13)); (u "con_bank", StoreNow k)] (o, w) in
  same_date (fst q) o = true /\ exists x e, snd q = (u "con_bank", k, Ok x) :: w /\ read_back x = Err e.
Proof.
  intros H q. pose proof H as H0. apply new_date_ok in H0. destruct H0 as (t & V & F & Eo).
  assert (Z : dt_month t = mo /\ dt_year t = y /\ dt_day t = d /\ dt_hour t = h /\ dt_minute t = mi /\ dt_second t = s /\ dt_micro t = us) by (destruct t; unfold dt_fields in F; cbn in F |- *; injection F as -> -> -> -> -> -> ->; auto 10).
  assert (S : same_date o o = true) by (destruct (C123_untouched_partial _ _ _ _ _ _ _ _ H) as (x & _ & _ & S); exact S). split; [exact S|].
  assert (I : Forall int_ok [y; 13%Z; d; h; mi; s; us]). { pose proof (vdt_small t V) as G. rewrite F in G. inversion G as [|? ? G1 G2]; subst. inversion G2 as [|? ? _ G3]; subst. apply Forall_cons; [exact G1|]. apply Forall_cons; [apply int_ok_small; lia|exact G3]. }
  destruct (C123_stored_as_assigned y mo d h mi s us o [(1%nat, VInt 13)] [y; 13%Z; d; h; mi; s; us] H) as (x & W & _ & R); [reflexivity|exact I|].
  exists x. destruct R as [e R].
  { intros t' D' E. apply is_datetime_valid in D'. unfold vdt, datetime_valid in D'. unfold dt_fields in E. injection E as _ E2 _ _ _ _ _. lia. }
  exists e. split; [|exact R]. subst q. unfold now_run. cbn [fold_left fst snd now_step]. change (assign 1 (VInt 13) o) with (assigned [(1%nat, VInt 13)] o). rewrite W. reflexivity.
Qed.

(** ** The refutation *)
(** Contract code can do that: a contract with `d = now; d.year = 1970; d.month = 13` in an exported function is accepted and compiled with those
    assignments as they are.  The date is the same as before and is stored as another, or as a text which cannot be read. *)
Definition set_year : ast := assign_at 2 (attribute_at 2 "now" "year" "Store") (int_at 2 1970).
Definition set_month : ast := assign_at 3 (attribute_at 3 "now" "month" "Store") (int_at 3 13).
Definition dating : ast := module [def_at 2 "f" none_args [set_year; set_month] (export_at 1) Absent].
Definition dating' : ast := match fst (parse (u "con_x") python true dating comp0) with Ok t => t | Err _ => Absent end.
Definition a_day : date_object := date_of (mkdt 2024 5 5 0 0 0 0).
Theorem C123_refuted :
  (accepted python dating /\ fst (parse (u "con_x") python true dating comp0) = Ok dating' /\ In set_year (nodes dating') /\ In set_month (nodes dating')) /\
  new_date 2024 5 5 0 0 0 0 = Ok a_day /\
  (exists x p, written (assigned [(0%nat, VInt 1970)] a_day) = Ok x /\ read_back x = Ok (Some p) /\ same_date (assigned [(0%nat, VInt 1970)] a_day) a_day = true /\ same_date p a_day = false) /\
  exists x e, written (assigned [(1%nat, VInt 13)] a_day) = Ok x /\ read_back x = Err e.
Proof.
  split.
  { split; [apply (fine_ok dating); vm_compute; reflexivity|]. split; [vm_compute; reflexivity|]. split; vm_compute; auto 40. }
  split; [vm_compute; reflexivity|]. split.
  - exists (match written (assigned [(0%nat, VInt 1970)] a_day) with Ok x => x | Err _ => [] end), (date_of (mkdt 1970 5 5 0 0 0 0)). repeat split; vm_compute; reflexivity.
  - exists (match written (assigned [(1%nat, VInt 13)] a_day) with Ok x => x | Err _ => [] end), EValue. split; vm_compute; reflexivity.
Qed.
(** the hypotheses of C123_stored_as_assigned, with two assignments to one attribute *)
Example C123_example : attributes (mkdt 2024 5 5 0 0 0 0) [(0%nat, VInt 1970); (1%nat, VInt 2); (0%nat, VInt 1999)] = map VInt [1999; 2; 5; 0; 0; 0; 0]%Z.
Proof. reflexivity. Qed.
