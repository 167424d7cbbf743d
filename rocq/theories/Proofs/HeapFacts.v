(** * Facts about objects by reference *)
From Coq Require Import Lia.
From Verif Require Import Model.Base Model.State Model.Value Model.Encoder Model.Hdf5 Model.Runtime Model.Driver Model.Heap.
From Verif Require Import Spec.HeapSpec Proofs.BaseFacts.
Local Notation length := List.length (only parsing).

(** ** Lists *)
Lemma mapo_ext {A B} (f g : A -> option B) l ys : (forall x y, f x = Some y -> g x = Some y) -> mapo f l = Some ys -> mapo g l = Some ys.
Proof.
  intros H. revert ys. induction l as [|x l IH]; simpl; intros ys E; [exact E|].
  destruct (f x) as [y|] eqn:F; [|discriminate]. destruct (mapo f l) as [zs|] eqn:M; [|discriminate].
  rewrite (H _ _ F), (IH _ eq_refl). exact E.
Qed.
Lemma mapo_ext_in {A B} (f g : A -> option B) l : (forall x, In x l -> f x = g x) -> mapo f l = mapo g l.
Proof. induction l as [|x l IH]; simpl; intros H; [reflexivity|]. rewrite (H x), IH; auto. Qed.
Lemma mapo_map {A B C} (g : A -> B) (f : B -> option C) l : mapo f (map g l) = mapo (fun x => f (g x)) l.
Proof. induction l as [|x l IH]; simpl; [reflexivity|]. rewrite IH. reflexivity. Qed.
Lemma mapo_length {A B} (f : A -> option B) l ys : mapo f l = Some ys -> length ys = length l.
Proof.
  revert ys. induction l as [|x l IH]; simpl; intros ys; [intros [= <-]; reflexivity|].
  destruct (f x), (mapo f l); try discriminate. intros [= <-]. simpl. f_equal. apply IH. reflexivity.
Qed.
Lemma mapo_In {A B} (f : A -> option B) l ys y : mapo f l = Some ys -> In y ys -> exists x, In x l /\ f x = Some y.
Proof.
  revert ys. induction l as [|x l IH]; simpl; intros ys; [intros [= <-] []|].
  destruct (f x) eqn:F; [|discriminate]. destruct (mapo f l) eqn:M; [|discriminate]. intros [= <-] [->|H]; [eauto|].
  destruct (IH _ eq_refl H) as (z & ? & ?). eauto.
Qed.
Lemma nth_upd_same {A} n (a : A) l : n < length l -> nth_error (upd n a l) n = Some a.
Proof. revert n. induction l as [|x l IH]; simpl; intros [|n] H; try lia; [reflexivity|]. apply IH. lia. Qed.
Lemma nth_upd_other {A} n m (a : A) l : n <> m -> nth_error (upd n a l) m = nth_error l m.
Proof. revert n m. induction l as [|x l IH]; intros [|n] [|m] H; simpl; try reflexivity; [lia|]. apply IH. lia. Qed.
Lemma upd_length {A} n (a : A) l : length (upd n a l) = length l.
Proof. revert n. induction l as [|x l IH]; intros [|n]; simpl; auto. Qed.

(** ** Following references *)
Definition ext (h h' : heap) : Prop := forall l o, nth_error h l = Some o -> nth_error h' l = Some o.
Lemma ext_refl h : ext h h. Proof. intros l o H; exact H. Qed.
Lemma ext_trans a b c : ext a b -> ext b c -> ext a c. Proof. intros H H' l o E. apply H', H, E. Qed.
Lemma ext_app h e : ext h (h ++ e).
Proof. intros l o H. rewrite nth_error_app1; [exact H|]. apply nth_error_Some. congruence. Qed.
Lemma ext_length h h' : ext h h' -> length h <= length h'.
Proof.
  intros H. destruct (length h) as [|n] eqn:E; [lia|].
  assert (Hn : n < length h) by lia. apply nth_error_Some in Hn. destruct (nth_error h n) as [o|] eqn:F; [|congruence].
  apply H in F. assert (n < length h'); [|lia]. apply nth_error_Some. congruence.
Qed.
Lemma deref_mono n m h h' l v : n <= m -> ext h h' -> deref n h l = Some v -> deref m h' l = Some v.
Proof.
  intros Hm Hx. revert m Hm l v. induction n as [|n IH]; intros m Hm l v; simpl; [discriminate|].
  destruct m as [|m]; [lia|]. simpl. destruct (nth_error h l) as [o|] eqn:E; [|discriminate]. rewrite (Hx _ _ E).
  assert (IH' : forall x y, deref n h x = Some y -> deref m h' x = Some y) by (intros; apply IH; [lia|assumption]).
  destruct o as [w|ls|ls|d]; [auto|..];
    match goal with |- context [mapo (deref n h) ?l] => destruct (mapo (deref n h) l) as [ys|] eqn:M; [|discriminate];
      rewrite (mapo_ext _ _ _ _ IH' M); auto end.
Qed.
Lemma val_ext h h' l v : ext h h' -> val h l = Some v -> val h' l = Some v.
Proof. intros H. apply deref_mono; [apply ext_length|]; assumption. Qed.
Lemma val_lnone h l v : val h l = Some v -> lnone h l = is_none v.
Proof.
  unfold val, lnone. destruct (length h); simpl; [discriminate|].
  destruct (nth_error h l) as [[w|ls|ls|d]|]; try discriminate; [intros [= ->]; destruct v; reflexivity|..];
    destruct (mapo _ _); try discriminate; intros [= <-]; reflexivity.
Qed.
Lemma val_vof h l v : val h l = Some v -> vof h l = v. Proof. unfold vof. intros ->. reflexivity. Qed.
Lemma vof_ext h h' l v : ext h h' -> val h l = Some v -> vof h' l = vof h l.
Proof. intros H E. rewrite (val_vof _ _ _ (val_ext _ _ _ _ H E)), (val_vof _ _ _ E). reflexivity. Qed.

(** ** New objects *)
Definition made (v : pyval) (h : heap) (r : loc * heap) : Prop := (exists e, snd r = h ++ e) /\ val (snd r) (fst r) = Some v.
Lemma app_ext h e r : r = h ++ e -> ext h r. Proof. intros ->. apply ext_app. Qed.
Lemma thread_made {X} (f : X -> heap -> loc * heap) (g : X -> pyval) l :
  Forall (fun x => forall h, made (g x) h (f x h)) l ->
  forall h, let '(ls, h') := thread f l h in
  (exists e, h' = h ++ e) /\ mapo (val h') ls = Some (map g l) /\ length ls = length l.
Proof.
  induction 1 as [|x l Hx Hl IH]; intros h; simpl.
  - split; [exists []; symmetry; apply app_nil_r|split; reflexivity].
  - destruct (Hx h) as [[e1 E1] V1]. destruct (f x h) as [a h1]. simpl in E1, V1.
    specialize (IH h1). destruct (thread f l h1) as [ls h2]. destruct IH as ([e2 E2] & M & L).
    split; [exists (e1 ++ e2); rewrite app_assoc; congruence|]. simpl. split; [|congruence].
    rewrite (val_ext h1 h2 _ _ (app_ext _ _ _ E2) V1), M. reflexivity.
Qed.
Lemma combine_map_fst {A B} (d : list (A * B)) : combine (map fst d) (map snd d) = d.
Proof. induction d as [|[a b] d IH]; simpl; [reflexivity|]. rewrite IH. reflexivity. Qed.
Lemma map_fst_combine {A B} (l : list A) (m : list B) : length m = length l -> map fst (combine l m) = l.
Proof. revert m. induction l as [|x l IH]; intros [|y m]; simpl; try discriminate; [reflexivity|]. intros [= H]. rewrite IH; auto. Qed.
Lemma map_snd_combine {A B} (l : list A) (m : list B) : length m = length l -> map snd (combine l m) = m.
Proof. revert m. induction l as [|x l IH]; intros [|y m]; simpl; try discriminate; [reflexivity|]. intros [= H]. rewrite IH; auto. Qed.
Lemma val_top o h : val (h ++ [o]) (length h) =
  match o with
  | OAtom v => Some v
  | OList ls => option_map VList (mapo (deref (length h) (h ++ [o])) ls)
  | OTuple ls => option_map VTuple (mapo (deref (length h) (h ++ [o])) ls)
  | ODict d => option_map (fun vs => VDict (combine (map fst d) vs)) (mapo (deref (length h) (h ++ [o])) (map snd d))
  end.
Proof.
  unfold val. rewrite app_length, Nat.add_comm. simpl. rewrite nth_error_app2, Nat.sub_diag by lia. reflexivity.
Qed.
Lemma mapo_val_top h o ls vs : mapo (val h) ls = Some vs -> mapo (deref (length h) (h ++ [o])) ls = Some vs.
Proof. apply mapo_ext. intros x y. apply deref_mono; [lia|apply ext_app]. Qed.
Lemma alloc_made v : forall h, made v h (alloc v h).
Proof.
  induction v as [ | | | | | | | | | |l IH|l IH|d IH| ] using pyval_nested_ind; intros h;
    try (split; [eexists; reflexivity|apply val_top]).
  - pose proof (thread_made alloc (fun x => x) l IH h) as H. simpl. destruct (thread alloc l h) as [ls h'].
    destruct H as ([e E] & M & L). rewrite map_id in M. split; [exists (e ++ [OList ls]); simpl; rewrite app_assoc; congruence|].
    simpl. rewrite val_top, (mapo_val_top _ _ _ _ M). reflexivity.
  - pose proof (thread_made alloc (fun x => x) l IH h) as H. simpl. destruct (thread alloc l h) as [ls h'].
    destruct H as ([e E] & M & L). rewrite map_id in M. split; [exists (e ++ [OTuple ls]); simpl; rewrite app_assoc; congruence|].
    simpl. rewrite val_top, (mapo_val_top _ _ _ _ M). reflexivity.
  - pose proof (thread_made (fun kv => alloc (snd kv)) snd d IH h) as H. cbn [alloc].
    destruct (thread (fun kv => alloc (snd kv)) d h) as [ls h'].
    destruct H as ([e E] & M & L). unfold new. split; [exists (e ++ [ODict (combine (map fst d) ls)]); simpl; rewrite app_assoc; congruence|].
    simpl. rewrite val_top, map_fst_combine, map_snd_combine by (rewrite map_length; exact L).
    rewrite (mapo_val_top _ _ _ _ M). simpl. rewrite combine_map_fst. reflexivity.
Qed.
Lemma alloc_ext v h : ext h (snd (alloc v h)).
Proof. destruct (alloc_made v h) as [[e ->] _]. apply ext_app. Qed.
Lemma alloc_val v h : val (snd (alloc v h)) (fst (alloc v h)) = Some v.
Proof. apply alloc_made. Qed.

(** ** deepcopy and in-place changes *)
Lemma deref_copy n h l : deref n (h ++ map (omap (fun l => l + length h)) h) (l + length h) = deref n h l.
Proof.
  revert l. induction n as [|n IH]; intros l; simpl; [reflexivity|].
  rewrite nth_error_app2, Nat.add_sub by lia. rewrite nth_error_map. unfold loc in *.
  destruct (nth_error h l) as [[v|ls|ls|d]|]; simpl; try reflexivity.
  - rewrite mapo_map, (mapo_ext_in _ (deref n h)); [reflexivity|]. intros; apply IH.
  - rewrite mapo_map, (mapo_ext_in _ (deref n h)); [reflexivity|]. intros; apply IH.
  - rewrite !map_map. simpl. rewrite mapo_map, (mapo_ext_in _ (fun x => deref n h (snd x))); [rewrite <- mapo_map; reflexivity|].
    intros x _. apply IH.
Qed.
Lemma val_copy h l v : val h l = Some v -> val (h ++ map (omap (fun l => l + length h)) h) (l + length h) = Some v.
Proof.
  unfold val. rewrite <- (deref_copy (length h)). apply deref_mono; [|apply ext_refl]. rewrite app_length. lia.
Qed.
Lemma deref_mutate n h a l o : ~ reach h a l -> deref n (upd l o h) a = deref n h a.
Proof.
  revert a. induction n as [|n IH]; intros a H; simpl; [reflexivity|].
  rewrite nth_upd_other by (intros <-; apply H; constructor).
  destruct (nth_error h a) as [q|] eqn:E; [|reflexivity].
  assert (H' : forall c, In c (parts q) -> deref n (upd l o h) c = deref n h c).
  { intros c Hc. apply IH. intros R. apply H. eapply reach_part; eassumption. }
  destruct q; simpl in H'; [reflexivity|..]; rewrite (mapo_ext_in _ _ _ H'); reflexivity.
Qed.
Lemma val_mutate h a l o : ~ reach h a l -> val (upd l o h) a = val h a.
Proof. unfold val. rewrite upd_length. apply deref_mutate. Qed.
