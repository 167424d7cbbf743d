(** * The compiled tree in the order of ast.walk *)
From Verif Require Import Model.Base Model.State Model.Dec Model.Time Model.Value Model.Encoder Model.Hdf5 Model.Runtime Model.Ast Model.Linter Model.Compiler.
From Verif Require Import Spec.LintSpec Spec.CompSpec Proofs.BaseFacts Proofs.DriverFacts Proofs.LintFacts Proofs.CompFacts.
From Coq Require Import Lia.
Local Open Scope string_scope.
Local Open Scope list_scope.

(** ** ast.walk reaches every node *)
Lemma levels_nil f : levels f [] = []. Proof. destruct f; reflexivity. Qed.
Lemma levels_S f l : levels (S f) l = l ++ levels f (flat_map kids l).
Proof. destruct l; [cbn; rewrite levels_nil; reflexivity|reflexivity]. Qed.
Lemma depth_node k ln fs : depth (Node k ln fs) = S ((fix go fs := match fs with [] => O | (_, v) :: r => Nat.max (depth v) (go r) end) fs).
Proof. reflexivity. Qed.
Lemma depth_field k ln fs fv : In fv fs -> depth (snd fv) < depth (Node k ln fs).
Proof. intros I. rewrite depth_node. apply Nat.lt_succ_r. induction fs as [|[g v] r IH]; [destruct I|]. destruct I as [<-|I]; cbn [snd]; [lia|]. specialize (IH I). lia. Qed.
Lemma depth_item l v : In v l -> depth v <= depth (Items l).
Proof. intros I. induction l as [|w r IH]; [destruct I|]. change (depth (Items (w :: r))) with (Nat.max (depth w) (depth (Items r))). destruct I as [<-|I]; [lia|]. specialize (IH I). lia. Qed.
Lemma kids_depth n x : In x (kids n) -> depth x < depth n /\ is_node x = true.
Proof.
  destruct n as [k ln fs|l|s|c|]; try (intros []). intros I. cbn [kids] in I. apply in_flat_map in I. destruct I as (fv & If & I). pose proof (depth_field k ln fs fv If) as D.
  destruct (snd fv) as [k' ln' fs'|l|s|c|] eqn:E; cbn [kids_of] in I; try (destruct I; fail).
  - destruct I as [<-|[]]. split; [exact D|reflexivity].
  - apply filter_In in I. destruct I as [I K]. split; [|exact K]. pose proof (depth_item l x I). lia.
Qed.
Lemma levels_more l : forall f, (forall n, In n l -> depth n <= f /\ is_node n = true) -> forall g, f <= g -> levels g l = levels f l.
Proof.
  intros f. revert l. induction f as [|f IH]; intros l H g G.
  - destruct l as [|n l]; [rewrite !levels_nil; reflexivity|]. destruct (H n (or_introl eq_refl)) as [D K]. destruct n; try discriminate K. rewrite depth_node in D. lia.
  - destruct g as [|g]; [lia|]. rewrite !levels_S. f_equal. apply IH; [|lia]. intros n I. apply in_flat_map in I. destruct I as (p & Ip & I). destruct (kids_depth p n I) as [D K]. destruct (H p Ip) as [D' _]. split; [lia|exact K].
Qed.
(** Python's trees have no lists of lists *)
Lemma kids_nodes n x : flat n -> is_node n = true -> (In x (nodes n) <-> x = n \/ exists c, In c (kids n) /\ In x (nodes c)).
Proof.
  intros F K. destruct n as [k ln fs|l|s|c|]; try discriminate K. assert (SELF : In (Node k ln fs) (nodes (Node k ln fs))) by (rewrite nodes_node; left; reflexivity).
  rewrite nodes_node. cbn [kids]. split.
  - intros [<-|I]; [left; reflexivity|]. right. apply in_flat_map in I. destruct I as ([g v] & If & I). cbn [snd] in I. destruct v as [k' ln' fs'|l|s|c|]; try (destruct I; fail).
    + exists (Node k' ln' fs'). split; [|exact I]. apply in_flat_map. exists (g, Node k' ln' fs'). split; [exact If|left; reflexivity].
    + rewrite nodes_items in I. apply in_flat_map in I. destruct I as (v & Iv & I). assert (NV : is_node v = true). { destruct v; try (destruct I; fail); [reflexivity|]. exfalso. exact (F k ln fs g l l0 SELF If Iv). }
      exists v. split; [|exact I]. apply in_flat_map. exists (g, Items l). split; [exact If|]. cbn [snd kids_of]. apply filter_In. auto.
  - intros [->|(c & Ic & I)]; [left; reflexivity|]. right. apply in_flat_map in Ic. destruct Ic as ([g v] & If & Ic). apply in_flat_map. exists (g, v). split; [exact If|]. cbn [snd] in *. destruct v as [k' ln' fs'|l|s|x'|]; try (destruct Ic; fail).
    + destruct Ic as [<-|[]]. exact I.
    + cbn [kids_of] in Ic. apply filter_In in Ic. destruct Ic as [Ic _]. rewrite nodes_items. apply in_flat_map. eauto.
Qed.
Lemma kids_in n c : In c (kids n) -> In c (nodes n).
Proof.
  destruct n as [k ln fs|l|s|x|]; try (intros []). intros I. cbn [kids] in I. apply in_flat_map in I. destruct I as ([g v] & If & I). rewrite nodes_node. right. apply in_flat_map. exists (g, v). split; [exact If|]. cbn [snd] in *.
  destruct v as [k' ln' fs'|l|s|x|]; try (destruct I; fail); [destruct I as [<-|[]]; rewrite nodes_node; left; reflexivity|]. cbn [kids_of] in I. apply filter_In in I. destruct I as [I K]. rewrite nodes_items. apply in_flat_map. exists c. split; [exact I|].
  destruct c; try discriminate K. rewrite nodes_node. left. reflexivity.
Qed.
Lemma levels_nodes x : forall f l, (forall n, In n l -> depth n <= f /\ is_node n = true /\ flat n) -> (In x (levels f l) <-> exists n, In n l /\ In x (nodes n)).
Proof.
  induction f as [|f IH]; intros l H.
  - destruct l as [|n l]; [cbn; split; [intros []|intros (n & [] & _)]|]. destruct (H n (or_introl eq_refl)) as (D & K & _). destruct n; try discriminate K. rewrite depth_node in D. lia.
  - rewrite levels_S, in_app_iff, IH.
    + split.
      * intros [I|(c & Ic & I)]; [exists x; split; [exact I|]; destruct (H x I) as (_ & K & _); destruct x; try discriminate K; rewrite nodes_node; left; reflexivity|].
        apply in_flat_map in Ic. destruct Ic as (n & In_ & Ic). exists n. split; [exact In_|]. destruct (H n In_) as (_ & K & F). apply (kids_nodes n x F K). eauto.
      * intros (n & In_ & I). destruct (H n In_) as (_ & K & F). apply (kids_nodes n x F K) in I. destruct I as [->|(c & Ic & I)]; [left; exact In_|right; exists c; split; [apply in_flat_map; eauto|exact I]].
    + intros c Ic. apply in_flat_map in Ic. destruct Ic as (n & In_ & Ic). destruct (H n In_) as (D & K & F). destruct (kids_depth n c Ic) as [D' K']. split; [lia|]. split; [exact K'|].
      intros k0 ln0 fs0 g l0 l1 Ip. apply (F k0 ln0 fs0). apply (nodes_trans _ _ _ (kids_in _ _ Ic) Ip).
Qed.
Lemma walk_nodes t x : flat t -> is_node t = true -> (In x (walk t) <-> In x (nodes t)).
Proof.
  intros F K. unfold walk. rewrite levels_nodes; [|intros n [<-|[]]; auto]. split; [intros (n & [<-|[]] & I); exact I|intros I; exists t; cbn; auto].
Qed.
Lemma walk_in t x : is_node t = true -> In x (walk t) -> In x (nodes t).
Proof.
  intros K. unfold walk. assert (Q : forall f l, (forall n, In n l -> In n (nodes t)) -> In x (levels f l) -> In x (nodes t)).
  { induction f as [|f IH]; intros l H I; [destruct I|]. rewrite levels_S in I. apply in_app_or in I. destruct I as [I|I]; [exact (H x I)|]. apply (IH (flat_map kids l)); [|exact I].
    intros n In_. apply in_flat_map in In_. destruct In_ as (p & Ip & In_). exact (nodes_trans _ _ _ (H p Ip) (kids_in _ _ In_)). }
  apply Q. intros n [<-|[]]. destruct t; try discriminate K. rewrite nodes_node. left. reflexivity.
Qed.

(** ** The definitions and assignments of the compiled tree come in the order of the source's *)
Definition dull (t : ast) : Prop := forall n, In n (nodes t) -> kind_of n <> "FunctionDef" /\ kind_of n <> "Assign".
Definition deed (n : ast) : bool := (is_kind "FunctionDef" n || is_kind "Assign" n)%bool.
Lemma dull_kid n c : dull n -> In c (kids n) -> dull c.
Proof. intros H I x J. apply H. exact (nodes_trans _ _ _ (kids_in _ _ I) J). Qed.
Lemma dull_deed n : is_node n = true -> dull n -> deed n = false.
Proof.
  intros K H. destruct n as [k ln fs| | | |]; try discriminate K. destruct (H (Node k ln fs)) as [A B]; [rewrite nodes_node; left; reflexivity|]. unfold deed, is_kind. cbn [kind_of] in *.
  destruct (String.eqb_spec "FunctionDef" k) as [E|_]; [exfalso; apply A; symmetry; exact E|]. destruct (String.eqb_spec "Assign" k) as [E|_]; [exfalso; apply B; symmetry; exact E|reflexivity].
Qed.
Section Order.
  Variables (m : pystr) (R : pystr -> pystr).
  Inductive pair : ast -> ast -> Prop :=
  | P_compiled n n' : python_tree n -> compiled m R n n' -> pair n n'
  | P_call lv f args kws f' args' kws' x : python_tree (the_call lv f args (Items kws)) -> compiled m R f f' -> compiled m R args args' -> Forall2 (compiled m R) kws kws' ->
      pair (the_call lv f args (Items kws)) (the_call lv f' args' (Items (kws' ++ [keyword_text "contract" m; keyword_text "name" x]))).
  Inductive sim : list ast -> list ast -> Prop :=
  | S_nil : sim [] []
  | S_both n n' l l' : pair n n' -> is_node n = true -> is_node n' = true -> sim l l' -> sim (n :: l) (n' :: l')
  | S_left n l l' : dull n -> is_node n = true -> sim l l' -> sim (n :: l) l'
  | S_right n l l' : dull n -> is_node n = true -> sim l l' -> sim l (n :: l').
  Lemma sim_app a a' b b' : sim a a' -> sim b b' -> sim (a ++ b) (a' ++ b').
  Proof. intros H K. induction H; cbn; [exact K|apply S_both; assumption|apply S_left; assumption|apply S_right; assumption]. Qed.
  Lemma sim_dull l l' : (forall n, In n l -> dull n /\ is_node n = true) -> (forall n, In n l' -> dull n /\ is_node n = true) -> sim l l'.
  Proof.
    intros H H'. induction l as [|n l IH]; [|destruct (H n (or_introl eq_refl)); apply S_left; [assumption|assumption|apply IH; intros x I; apply H; right; exact I]].
    clear H. induction l' as [|n l' IH]; [constructor|]. destruct (H' n (or_introl eq_refl)). apply S_right; [assumption|assumption|apply IH; intros x I; apply H'; right; exact I].
  Qed.
  Lemma compiled_is_node n n' : compiled m R n n' -> is_node n' = is_node n.
  Proof. intros C. destruct C; reflexivity. Qed.
  Lemma sim_kids_of v v' : python_tree v -> compiled m R v v' -> sim (kids_of v) (kids_of v').
  Proof.
    intros HT C. pose proof (compiled_is_node v v' C) as K. destruct v as [k ln fs|l|s|c|]; cbn [is_node] in K.
    - destruct v'; try discriminate K. cbn [kids_of]. apply S_both; [apply P_compiled; assumption|reflexivity|reflexivity|constructor].
    - inversion C as [| | |l1 l' H| | | | | | | | |]; subst. cbn [kids_of]. clear C K. induction H as [|a b l l' Hab _ IH]; [constructor|].
      cbn [filter]. rewrite (compiled_is_node a b Hab). assert (HT' : python_tree (Items l)) by (intros n I; apply HT; rewrite nodes_items in *; cbn [flat_map]; apply in_or_app; right; exact I). destruct (is_node a) eqn:Ka; [|exact (IH HT')].
      apply S_both; [apply P_compiled; [apply (tree_item _ _ HT); left; reflexivity|exact Hab]|exact Ka|rewrite (compiled_is_node a b Hab); exact Ka|exact (IH HT')].
    - destruct v'; try discriminate K; try constructor. inversion C.
    - destruct v'; try discriminate K; try constructor. inversion C.
    - destruct v'; try discriminate K; try constructor. inversion C.
  Qed.
  Lemma sim_items l l' : python_tree (Items l) -> Forall2 (compiled m R) l l' -> sim (kids_of (Items l)) (kids_of (Items l')).
  Proof. intros HT H. apply (sim_kids_of _ _ HT). constructor. exact H. Qed.
  Lemma no_kids k : nodes k = [] -> kids_of k = [].
  Proof.
    intros H. destruct (kids_of k) as [|c l] eqn:E; [reflexivity|]. assert (I : In c (kids_of k)) by (rewrite E; left; reflexivity). exfalso. destruct k as [k ln fs|l0|s|x|]; cbn [kids_of] in I; try (destruct I; fail).
    - rewrite nodes_node in H. discriminate H.
    - apply filter_In in I. destruct I as [I K]. rewrite nodes_items in H. assert (Q : In c (flat_map nodes l0)) by (apply in_flat_map; exists c; split; [exact I|destruct c; try discriminate K; rewrite nodes_node; left; reflexivity]). rewrite H in Q. destruct Q.
  Qed.
  Lemma dull_leaf t c : python_tree t -> In (Node c None []) (nodes t) -> dull (Node c None []).
  Proof. intros HT I x J. rewrite nodes_node in J. destruct J as [<-|[]]. destruct (made_ctx t c HT I) as (A & B & _). auto. Qed.
  Lemma dull_name t ln x c y : python_tree t -> In (name_of ln x c) (nodes t) -> dull (name_of ln y c).
  Proof.
    intros HT I n J. destruct (HT _ I) as (SN & _). destruct (SN eq_refl) as (ln1 & z & c1 & E). injection E as -> _ ->. unfold name_of in J. rewrite nodes_node in J. cbn [flat_map snd nodes app] in J.
    destruct J as [<-|[<-|[]]]; [split; discriminate|]. apply (dull_leaf t c1 HT); [|cbn; auto]. apply (nodes_trans _ _ _ I). cbn. auto.
  Qed.
  Lemma dull_text s : dull (text s).
  Proof. intros n I. cbn in I. destruct I as [<-|[]]. split; discriminate. Qed.
  Lemma dull_keyword x s : dull (keyword_text x s).
  Proof. intros n I. cbn in I. destruct I as [<-|[<-|[]]]; split; discriminate. Qed.
  Lemma comment_kids v : comment v -> kids_of v = [].
  Proof. intros [->|(s & ->)]; reflexivity. Qed.
  Lemma dull_decorator t d x : python_tree t -> In d (nodes t) -> has_field d "id" (Ident x) -> dull d /\ is_node d = true.
  Proof.
    intros HT I F. destruct (HT d I) as (SN & _ & _ & _ & _ & SI). destruct (SN (SI _ F)) as (ln & y & c & ->). split; [|reflexivity]. exact (dull_name t ln y (Node c None []) y HT I).
  Qed.
  Lemma sim_kids n n' : pair n n' -> sim (kids n) (kids n').
  Proof.
    intros H. destruct H as [n n' HT C|lv f args kws f' args' kws' x HT CF CA CK].
    - assert (SELF : is_node n = true -> In n (nodes n)) by (destruct n; try discriminate; intros _; rewrite nodes_node; left; reflexivity).
      destruct C as [| | |l l' H|ln x ctx|ln s k|ln c k NF|ln x a b r tc a' b' r' CA CB CR|ln x a b d r tc a' b' r' FD CA CB CR|ln x a b ld ctx r tc a' b' r' CA CB CR|
        ln lv f args kws ts tc c x f' args' kws' ts' OA TG CF CA CK CT|ln ts w tc ts' w' NO CT CV|k ln fs fs' NK H]; try (constructor; fail); try specialize (SELF eq_refl).
      + cbn [kids name_of flat_map snd kids_of app]. rewrite app_nil_r. destruct (HT _ SELF) as (SN & _). destruct (SN eq_refl) as (ln1 & y & c1 & E). injection E as _ _ ->. cbn [kids_of].
        assert (D : dull (Node c1 None [])) by (apply (dull_leaf _ _ HT); cbn; auto). apply sim_dull; intros n [<-|[]]; auto.
      + destruct (HT _ SELF) as (_ & SC & _). destruct (SC eq_refl) as (ln1 & c1 & k1 & E & NK). injection E as <- <- <-. cbn [kids constant_node flat_map snd kids_of app]. rewrite (no_kids k NK). cbn [app].
        unfold decimal_call. cbn [kids the_call flat_map snd kids_of filter is_node app name_of text constant_node]. apply sim_dull; [intros n []|]. intros n [<-|[<-|[]]]; (split; [|reflexivity]).
        * intros y J. cbn in J. destruct J as [<-|[<-|[]]]; split; discriminate.
        * apply dull_text.
      + destruct (HT _ SELF) as (_ & SC & _). destruct (SC eq_refl) as (ln1 & c1 & k1 & E & NK). injection E as <- <- <-. cbn [kids constant_node flat_map snd kids_of app]. rewrite (no_kids k NK). constructor.
      + destruct (HT _ SELF) as (_ & _ & SF & _). destruct (SF eq_refl) as (ln0 & x1 & a1 & b1 & ds1 & r1 & tc1 & E & CM). injection E as <- <- <- <- <- <- <-.
        unfold def_node. cbn [kids flat_map snd]. rewrite (comment_kids tc CM). cbn [kids_of filter app]. apply sim_app; [apply sim_kids_of; [exact (tree_field _ _ _ ("args", a) HT (or_intror (or_introl eq_refl)))|exact CA]|].
        apply sim_app; [apply sim_kids_of; [exact (tree_field _ _ _ ("body", b) HT (or_intror (or_intror (or_introl eq_refl))))|exact CB]|].
        apply sim_app; [apply sim_kids_of; [eapply (tree_field _ _ _ ("returns", r) HT); cbn; auto 10|exact CR]|constructor].
      + destruct (HT _ SELF) as (_ & _ & SF & _). destruct (SF eq_refl) as (ln0 & x1 & a1 & b1 & ds1 & r1 & tc1 & E & CM). injection E as <- <- <- <- <- <- <-.
        unfold def_node. cbn [kids flat_map snd]. rewrite (comment_kids tc CM). apply sim_app; [constructor|]. apply sim_app; [apply sim_kids_of; [exact (tree_field _ _ _ ("args", a) HT (or_intror (or_introl eq_refl)))|exact CA]|].
        apply sim_app; [apply sim_kids_of; [exact (tree_field _ _ _ ("body", b) HT (or_intror (or_intror (or_introl eq_refl))))|exact CB]|].
        assert (ID : In d (nodes (def_node ln x a b [d] r tc))). { unfold def_node. rewrite nodes_node. right. apply in_flat_map. exists ("decorator_list", Items [d]). split; [cbn; auto 10|]. cbn [snd]. rewrite nodes_items. cbn [flat_map]. apply in_or_app. left. destruct d; try discriminate FD. rewrite nodes_node. left. reflexivity. }
        destruct (dull_decorator _ _ _ HT ID FD) as [DD KD]. apply sim_app; [cbn [kids_of filter]; rewrite KD; apply S_left; [exact DD|exact KD|constructor]|].
        apply sim_app; [apply sim_kids_of; [eapply (tree_field _ _ _ ("returns", r) HT); cbn; auto 10|exact CR]|constructor].
      + destruct (HT _ SELF) as (_ & _ & SF & _). destruct (SF eq_refl) as (ln0 & x1 & a1 & b1 & ds1 & r1 & tc1 & E & CM). injection E as <- <- <- <- <- <- <-.
        unfold def_node. cbn [kids flat_map snd]. rewrite (comment_kids tc CM). apply sim_app; [constructor|]. apply sim_app; [apply sim_kids_of; [exact (tree_field _ _ _ ("args", a) HT (or_intror (or_introl eq_refl)))|exact CA]|].
        apply sim_app; [apply sim_kids_of; [exact (tree_field _ _ _ ("body", b) HT (or_intror (or_intror (or_introl eq_refl))))|exact CB]|].
        assert (ID : In (name_of ld (u "export") ctx) (nodes (def_node ln x a b [name_of ld (u "export") ctx] r tc))). { unfold def_node. rewrite nodes_node. right. apply in_flat_map. exists ("decorator_list", Items [name_of ld (u "export") ctx]). split; [cbn; auto 10|]. cbn [snd]. rewrite nodes_items. cbn [flat_map]. apply in_or_app. left. left. reflexivity. }
        apply sim_app.
        { cbn [kids_of filter is_node name_of the_call]. apply sim_dull; intros n [<-|[]]; (split; [|reflexivity]); [exact (dull_name _ _ _ _ _ HT ID)|].
          intros y J. unfold the_call in J. rewrite nodes_node in J. destruct J as [<-|J]; [split; discriminate|]. apply in_flat_map in J. destruct J as (fv & [<-|[<-|[<-|[]]]] & J); cbn [snd] in J.
          - exact (dull_name _ _ _ _ (R (u "__export")) HT ID y J).
          - rewrite nodes_items in J. cbn [flat_map] in J. rewrite app_nil_r in J. exact (dull_text m y J).
          - destruct J. }
        apply sim_app; [apply sim_kids_of; [eapply (tree_field _ _ _ ("returns", r) HT); cbn; auto 10|exact CR]|constructor].
      + destruct (HT _ SELF) as (_ & _ & _ & SA & _). destruct (SA eq_refl) as (ln0 & ts1 & v1 & tc1 & E & CM). injection E as <- <- <- <-. unfold assign_node. cbn [kids flat_map snd]. rewrite (comment_kids tc CM).
        apply sim_app; [apply sim_items; [exact (tree_field _ _ _ ("targets", Items ts) HT (or_introl eq_refl))|exact CT]|]. apply sim_app; [|constructor].
        cbn [kids_of the_call]. apply S_both; [apply P_call; [|assumption|assumption|assumption]|reflexivity|reflexivity|constructor]. exact (tree_field _ _ _ ("value", _) HT (or_intror (or_introl eq_refl))).
      + destruct (HT _ SELF) as (_ & _ & _ & SA & _). destruct (SA eq_refl) as (ln0 & ts1 & v1 & tc1 & E & CM). injection E as <- <- <- <-. unfold assign_node. cbn [kids flat_map snd]. rewrite (comment_kids tc CM).
        apply sim_app; [apply sim_items; [exact (tree_field _ _ _ ("targets", Items ts) HT (or_introl eq_refl))|exact CT]|]. apply sim_app; [|constructor]. apply sim_kids_of; [|exact CV]. exact (tree_field _ _ _ ("value", _) HT (or_intror (or_introl eq_refl))).
      + cbn [kids]. assert (HF : forall fv, In fv fs -> python_tree (snd fv)) by (intros fv I; exact (tree_field _ _ _ fv HT I)). clear - H HF. induction H as [|a b l l' [_ Hab] _ IH]; [constructor|].
        cbn [flat_map]. apply sim_app; [apply sim_kids_of; [apply HF; left; reflexivity|exact Hab]|apply IH; intros fv I; apply HF; right; exact I].
    - unfold the_call. cbn [kids flat_map snd]. apply sim_app; [apply sim_kids_of; [exact (tree_field _ _ _ ("func", f) HT (or_introl eq_refl))|exact CF]|].
      apply sim_app; [apply sim_kids_of; [exact (tree_field _ _ _ ("args", args) HT (or_intror (or_introl eq_refl)))|exact CA]|].
      rewrite !app_nil_r. cbn [kids_of]. rewrite filter_app. rewrite <- (app_nil_r (filter is_node kws)). apply sim_app; [apply sim_items; [exact (tree_field _ _ _ ("keywords", Items kws) HT (or_intror (or_intror (or_introl eq_refl))))|exact CK]|].
      cbn [filter is_node keyword_text]. apply sim_dull; [intros n []|]. intros n [<-|[<-|[]]]; (split; [apply dull_keyword|reflexivity]).
  Qed.
  Lemma sim_flat l l' : sim l l' -> sim (flat_map kids l) (flat_map kids l').
  Proof.
    intros H. induction H as [|n n' l l' P K K' _ IH|n l l' D K _ IH|n l l' D K _ IH]; cbn [flat_map]; [constructor| | |].
    - apply sim_app; [apply sim_kids; exact P|exact IH].
    - change (flat_map kids l') with ([] ++ flat_map kids l'). apply sim_app; [|exact IH]. apply sim_dull; [|intros x []]. intros x I. split; [exact (dull_kid n x D I)|exact (proj2 (kids_depth n x I))].
    - change (flat_map kids l) with ([] ++ flat_map kids l). apply sim_app; [|exact IH]. apply sim_dull; [intros x []|]. intros x I. split; [exact (dull_kid n x D I)|exact (proj2 (kids_depth n x I))].
  Qed.
  Lemma sim_levels f : forall l l', sim l l' -> sim (levels f l) (levels f l').
  Proof. induction f as [|f IH]; intros l l' H; [constructor|]. rewrite !levels_S. apply sim_app; [exact H|apply IH, sim_flat, H]. Qed.
  Lemma compiled_kind n n' : python_tree n -> compiled m R n n' -> is_node n = true -> kind_of n <> "Constant" -> kind_of n' = kind_of n.
  Proof. intros HT C K NC. destruct C; try discriminate K; try reflexivity. exfalso. apply NC. reflexivity. Qed.
  Lemma deed_pair n n' : pair n n' -> is_node n = true -> deed n' = deed n /\ (deed n = true -> python_tree n /\ compiled m R n n').
  Proof.
    intros P K. destruct P as [n n' HT C|lv f args kws f' args' kws' x HT CF CA CK]; [|split; [reflexivity|discriminate]]. split; [|auto]. destruct C; try discriminate K; reflexivity.
  Qed.
  Lemma sim_deeds l l' : sim l l' -> Forall2 (fun n n' => python_tree n /\ compiled m R n n') (filter deed l) (filter deed l').
  Proof.
    intros H. induction H as [|n n' l l' P K K' _ IH|n l l' D K _ IH|n l l' D K _ IH]; cbn [filter]; [constructor| |rewrite (dull_deed n K D); exact IH|rewrite (dull_deed n K D); exact IH].
    destruct (deed_pair n n' P K) as [E C]. rewrite E. destruct (deed n); [constructor; [apply C; reflexivity|exact IH]|exact IH].
  Qed.
  Lemma walk_compiled t t' : python_tree t -> is_node t = true -> compiled m R t t' -> Forall2 (fun n n' => python_tree n /\ compiled m R n n') (filter deed (walk t)) (filter deed (walk t')).
  Proof.
    intros HT K C. pose proof (compiled_is_node t t' C) as K'. rewrite K in K'. apply sim_deeds. unfold walk.
    rewrite <- (levels_more [t] (depth t)) with (g := Nat.max (depth t) (depth t')); [|intros n [<-|[]]; auto|lia].
    rewrite <- (levels_more [t'] (depth t')) with (g := Nat.max (depth t) (depth t')); [|intros n [<-|[]]; auto|lia].
    apply sim_levels. apply S_both; [apply P_compiled; assumption|exact K|exact K'|constructor].
  Qed.
End Order.
