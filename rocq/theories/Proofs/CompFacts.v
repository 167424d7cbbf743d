(** * The compiler's transformation of trees *)
From Verif Require Import Model.Base Model.State Model.Dec Model.Time Model.Value Model.Encoder Model.Hdf5 Model.Runtime Model.Ast Model.Linter Model.Compiler.
From Verif Require Import Spec.LintSpec Spec.CompSpec Proofs.BaseFacts Proofs.DriverFacts Proofs.LintFacts.
From Coq Require Import Lia.
Local Open Scope string_scope.
Local Open Scope list_scope.

Lemma private_node k ln fs x : private_name (Node k ln fs) x <-> (decorators (Node k ln fs) [] /\ has_field (Node k ln fs) "name" (Ident x)) \/ exists fv, In fv fs /\ private_name (snd fv) x.
Proof.
  unfold private_name. rewrite nodes_node. split.
  - intros (n & [<-|I] & D & F); [left; auto|right]. apply in_flat_map in I. destruct I as (fv & I & J). exists fv. split; [exact I|]. exists n. auto.
  - intros [[D F]|(fv & I & n & J & D & F)]; [eexists; split; [left; reflexivity|auto]|]. exists n. split; [right; apply in_flat_map; eauto|auto].
Qed.
Lemma private_items l x : private_name (Items l) x <-> exists v, In v l /\ private_name v x.
Proof.
  unfold private_name. rewrite nodes_items. split.
  - intros (n & I & D & F). apply in_flat_map in I. destruct I as (v & I & J). exists v. split; [exact I|]. exists n. auto.
  - intros (v & I & n & J & D & F). exists n. split; [apply in_flat_map; eauto|auto].
Qed.
Lemma orm_node k ln fs x : orm_name (Node k ln fs) x <-> (exists c kws, orm_assignment (Node k ln fs) c kws /\ first_target (Node k ln fs) x) \/ exists fv, In fv fs /\ orm_name (snd fv) x.
Proof.
  unfold orm_name. rewrite nodes_node. split.
  - intros (n & c & kws & [<-|I] & D & F); [left; eauto|right]. apply in_flat_map in I. destruct I as (fv & I & J). exists fv. split; [exact I|]. exists n, c, kws. auto.
  - intros [(c & kws & D & F)|(fv & I & n & c & kws & J & D & F)]; [eexists; exists c, kws; split; [left; reflexivity|auto]|]. exists n, c, kws. split; [right; apply in_flat_map; eauto|auto].
Qed.
Lemma orm_items l x : orm_name (Items l) x <-> exists v, In v l /\ orm_name v x.
Proof.
  unfold orm_name. rewrite nodes_items. split.
  - intros (n & c & kws & I & D & F). apply in_flat_map in I. destruct I as (v & I & J). exists v. split; [exact I|]. exists n, c, kws. auto.
  - intros (v & I & n & c & kws & J & D & F). exists n, c, kws. split; [apply in_flat_map; eauto|auto].
Qed.
Lemma private_leaf n x : nodes n = [] -> ~ private_name n x.
Proof. intros E (m & I & _). rewrite E in I. destruct I. Qed.
Lemma orm_leaf n x : nodes n = [] -> ~ orm_name n x.
Proof. intros E (m & c & kws & I & _). rewrite E in I. destruct I. Qed.
Lemma tree_field k ln fs fv : python_tree (Node k ln fs) -> In fv fs -> python_tree (snd fv).
Proof. intros H I n J. apply H. rewrite nodes_node. right. apply in_flat_map. eauto. Qed.
Lemma tree_item l v : python_tree (Items l) -> In v l -> python_tree v.
Proof. intros H I n J. apply H. rewrite nodes_items. apply in_flat_map. eauto. Qed.

Section Comp.
  Variable m : pystr.
  (** the names noted by a visit *)
  Record noted (s s' : comp) (pr orm : pystr -> Prop) : Prop := mkNoted {
    no_linter : co_linter s' = co_linter s;
    no_alerts : co_alerts s' = co_alerts s;
    no_private : forall x, In x (co_private s') <-> In x (co_private s) \/ pr x;
    no_orm : forall x, In x (co_orm s') <-> In x (co_orm s) \/ orm x }.
  Lemma noted_refl s : noted s s (fun _ => False) (fun _ => False).
  Proof. constructor; try reflexivity; intros x; tauto. Qed.
  Lemma noted_iff s s' p o p' o' : noted s s' p o -> (forall x, p x <-> p' x) -> (forall x, o x <-> o' x) -> noted s s' p' o'.
  Proof. intros [A B C D] HP HO. constructor; auto; intros x; [rewrite C, HP|rewrite D, HO]; reflexivity. Qed.
  Lemma noted_trans s s1 s2 p o p' o' : noted s s1 p o -> noted s1 s2 p' o' -> noted s s2 (fun x => p x \/ p' x) (fun x => o x \/ o' x).
  Proof. intros [A B C D] [A' B' C' D']. constructor; try congruence; intros x; [rewrite C', C|rewrite D', D]; tauto. Qed.
  Lemma add_to_iff x y l : In y (add_to str_eqb x l) <-> In y l \/ y = x.
  Proof.
    unfold add_to. destruct (existsb (str_eqb x) l) eqn:E; [|rewrite in_app_iff; cbn; intuition]. apply existsb_exists in E. destruct E as (z & I & E). apply str_eqb_eq in E. subst z. intuition. subst. exact I.
  Qed.
  (** decorators of accepted code *)
  Definition decorated_ok (t : ast) : Prop := forall n ds, In n (nodes t) -> decorators n ds -> ds = [] \/ exists d, ds = [d] /\ (has_field d "id" (Ident (u "export")) \/ has_field d "id" (Ident (u "construct"))).
  Lemma decorated_field k ln fs fv : decorated_ok (Node k ln fs) -> In fv fs -> decorated_ok (snd fv).
  Proof. intros H I n ds J. apply H. rewrite nodes_node. right. apply in_flat_map. eauto. Qed.
  Lemma decorated_item l v : decorated_ok (Items l) -> In v l -> decorated_ok v.
  Proof. intros H I n ds J. apply H. rewrite nodes_items. apply in_flat_map. eauto. Qed.
  (** the statement for a subtree *)
  Definition visit_ok (n : ast) : Prop := forall s l s', python_tree n -> decorated_ok n -> cvisit m n s = (Ok l, s') ->
    noted s s' (private_name n) (orm_name n) /\ forall R, compiled m R n (l R).
  Lemma visit_leaf n : nodes n = [] -> (forall s, cvisit m n s = (Ok (fun _ => n), s)) -> (forall R, compiled m R n n) -> visit_ok n.
  Proof.
    intros N E C s l s' _ _ V. rewrite E in V. injection V as <- <-. split; [|intros R; apply C]. eapply noted_iff; [apply noted_refl| |]; intros x; split; try tauto; [apply private_leaf, N|apply orm_leaf, N].
  Qed.
  Lemma orm_call_spec ln ts v tc : python_tree (assign_node ln ts v tc) ->
    match orm_call v with
    | Ok (Some c) => exists kws, orm_assignment (assign_node ln ts v tc) c kws
    | Ok None => forall c kws, ~ orm_assignment (assign_node ln ts v tc) c kws
    | Err _ => True
    end.
  Proof.
    intros HT. unfold orm_call. destruct (is_kind "Call" v) eqn:K.
    - assert (KV : kind_of v = "Call"). { destruct v; try discriminate K. unfold is_kind in K. apply String.eqb_eq in K. cbn [kind_of]. auto. }
      assert (IV : In v (nodes (assign_node ln ts v tc))). { unfold assign_node. rewrite nodes_node. right. apply in_flat_map. exists ("value", v). split; [right; left; reflexivity|]. apply nodes_self. cbn [snd]. rewrite KV. discriminate. }
      destruct (HT v IV) as (_ & _ & _ & _ & SC & _). destruct (SC KV) as (lv & f & args & kws & ->).
      assert (FF : attr "func" (the_call lv f args (Items kws)) = Ok f) by reflexivity. rewrite FF. cbn [bindr].
      destruct (is_kind "Attribute" f) eqn:KA.
      + intros c kws' (_ & _ & v & f0 & FV & _ & FF' & KF & _). injection FV as <-. injection FF' as <-. destruct f; try discriminate KA. unfold is_kind in KA. apply String.eqb_eq in KA. cbn [kind_of] in KF. congruence.
      + destruct (attr_id "id" f) as [id|e] eqn:EI; [|exact I]. cbn [bindr].
        assert (KF : kind_of f = "Name").
        { assert (QF : In f (nodes f)) by (destruct f; try discriminate EI; rewrite nodes_node; left; reflexivity).
          assert (IF : In f (nodes (assign_node ln ts (the_call lv f args (Items kws)) tc))). { apply (nodes_trans _ (the_call lv f args (Items kws))); [exact IV|]. unfold the_call. rewrite nodes_node. right. apply in_flat_map. exists ("func", f). split; [left; reflexivity|exact QF]. }
          destruct (HT f IF) as (_ & _ & _ & _ & _ & SI). apply attr_id_inv in EI. exact (SI _ EI). }
        apply attr_id_inv in EI. destruct (str_mem id ORM_CLASS_NAMES) eqn:M.
        * apply str_mem_spec in M. unfold ORM_CLASS_NAMES in M. apply in_map_iff in M. destruct M as (y & <- & M). exists kws. split; [reflexivity|]. split; [exists y; auto|]. exists (the_call lv f args (Items kws)), f. repeat split; auto.
        * intros c kws' (_ & (y & Y & ->) & v & f0 & FV & _ & FF' & _ & FI & _). injection FV as <-. injection FF' as <-. unfold has_field in EI, FI. rewrite EI in FI. injection FI as ->.
          assert (str_mem (u y) ORM_CLASS_NAMES = true); [|congruence]. apply str_mem_spec. apply in_map. exact Y.
    - intros c kws (_ & _ & v' & f & FV & KV & _). injection FV as <-. destruct (kind_cases v _ KV) as (a & b & ->); [discriminate|]. discriminate K.
  Qed.
  Definition put (kws : list ast) (f : string) (w : ast) : ast := if (String.eqb f "value" && negb (Nat.eqb (List.length kws) 0))%bool then append_keywords kws w else w.
  Lemma go_fields kws fs : Forall (fun fv => visit_ok (snd fv)) fs -> (forall fv, In fv fs -> python_tree (snd fv) /\ decorated_ok (snd fv)) -> forall s fs' s',
    (fix go fs := match fs with
                  | [] => ret []
                  | (f, v) :: r =>
                      let! v' := cvisit m v in
                      let! r' := go r in
                      ret ((f, if (String.eqb f "value" && negb (Nat.eqb (List.length kws) 0))%bool then (fun rn => append_keywords kws (v' rn)) else v') :: r')
                  end) fs s = (Ok fs', s') ->
    noted s s' (fun x => exists fv, In fv fs /\ private_name (snd fv) x) (fun x => exists fv, In fv fs /\ orm_name (snd fv) x) /\
    forall R, Forall2 (fun a b => fst a = fst b /\ exists w, compiled m R (snd a) w /\ snd b = put kws (fst a) w) fs (map (fun fv : string * late => (fst fv, snd fv R)) fs').
  Proof.
    intros H. induction H as [|[f v] fs Hv H IH]; intros HT s fs' s' E.
    - injection E as <- <-. split; [|intros R; constructor]. eapply noted_iff; [apply noted_refl| |]; intros x; (split; [tauto|intros (fv & [] & _)]).
    - apply bind_inv in E. destruct E as (v' & s1 & E1 & E). apply bind_inv in E. destruct E as (r' & s2 & E2 & E). injection E as <- <-.
      destruct (HT (f, v) (or_introl eq_refl)) as [T1 T2]. cbn [snd] in *. destruct (Hv _ _ _ T1 T2 E1) as [N1 C1]. destruct (IH (fun fv I => HT fv (or_intror I)) _ _ _ E2) as [N2 C2]. split.
      + eapply noted_iff; [exact (noted_trans _ _ _ _ _ _ _ N1 N2)| |]; intros x; (split; [intros [P|(fv & I & P)]; [exists (f, v); split; [left; reflexivity|exact P]|exists fv; split; [right; exact I|exact P]]|
          intros (fv & [<-|I] & P); [left; exact P|right; exists fv; auto]]).
      + intros R. cbn [map]. constructor; [|apply C2]. cbn [fst snd]. split; [reflexivity|]. exists (v' R). split; [apply C1|]. unfold put. destruct (_ && _)%bool; reflexivity.
  Qed.
  Lemma go_items l : Forall visit_ok l -> (forall v, In v l -> python_tree v /\ decorated_ok v) -> forall s l' s',
    (fix go l := match l with [] => ret [] | v :: r => let! v' := cvisit m v in let! r' := go r in ret (v' :: r') end) l s = (Ok l', s') ->
    noted s s' (fun x => exists v, In v l /\ private_name v x) (fun x => exists v, In v l /\ orm_name v x) /\
    forall R, Forall2 (compiled m R) l (map (fun x : late => x R) l').
  Proof.
    intros H. induction H as [|v l Hv H IH]; intros HT s l' s' E.
    - injection E as <- <-. split; [|intros R; constructor]. eapply noted_iff; [apply noted_refl| |]; intros x; (split; [tauto|intros (fv & [] & _)]).
    - apply bind_inv in E. destruct E as (v' & s1 & E1 & E). apply bind_inv in E. destruct E as (r' & s2 & E2 & E). injection E as <- <-.
      destruct (HT v (or_introl eq_refl)) as [T1 T2]. destruct (Hv _ _ _ T1 T2 E1) as [N1 C1]. destruct (IH (fun fv I => HT fv (or_intror I)) _ _ _ E2) as [N2 C2]. split.
      + eapply noted_iff; [exact (noted_trans _ _ _ _ _ _ _ N1 N2)| |]; intros x; (split; [intros [P|(w & I & P)]; [exists v; split; [left; reflexivity|exact P]|exists w; split; [right; exact I|exact P]]|
          intros (w & [<-|I] & P); [left; exact P|right; exists w; auto]]).
      + intros R. cbn [map]. constructor; [apply C1|apply C2].
  Qed.
  Lemma F2_cons {A B} (Q : A -> B -> Prop) a l x : Forall2 Q (a :: l) x -> exists b l', x = b :: l' /\ Q a b /\ Forall2 Q l l'.
  Proof. intros H. inversion H; subst. eauto. Qed.
  Lemma F2_impl {A B} (Q Q' : A -> B -> Prop) l l' : (forall a b, Q a b -> Q' a b) -> Forall2 Q l l' -> Forall2 Q' l l'.
  Proof. intros H F. induction F; constructor; auto. Qed.
  Lemma F2_nil {A B} (Q : A -> B -> Prop) x : Forall2 Q [] x -> x = [].
  Proof. intros H. inversion H. reflexivity. Qed.
  Lemma compiled_comment R v w : comment v -> compiled m R v w -> w = v.
  Proof. intros [->|(x & ->)] C; inversion C; reflexivity. Qed.
  Lemma compiled_call R lv f args kws w : compiled m R (the_call lv f args (Items kws)) w -> exists f' args' kws', w = the_call lv f' args' (Items kws') /\ compiled m R f f' /\ compiled m R args args' /\ Forall2 (compiled m R) kws kws'.
  Proof.
    intros C. inversion C as [| | | | | | | | | | | |k ln fs fs' NK H]; subst. inversion H as [|a b l l' [A1 A2] H1]; subst. inversion H1 as [|a2 b2 l2 l2' [B1 B2] H2]; subst. inversion H2 as [|a3 b3 l3 l3' [D1 D2] H3]; subst. inversion H3; subst.
    destruct b as [b1 b'], b2 as [b21 b2'], b3 as [b31 b3']. cbn [fst snd] in *. subst. inversion D2; subst. do 3 eexists. split; [reflexivity|]. auto.
  Qed.
  Lemma cvisit_ok n : visit_ok n.
  Proof.
    induction n as [k ln fs IH|l IH|x|c|] using ast_nested_ind.
    2: { intros s l0 s' HT HD E. cbn [cvisit] in E. apply bind_inv in E. destruct E as (l' & s1 & E1 & E). injection E as <- <-.
         destruct (go_items l IH) with (s := s) (l' := l') (s' := s1) as [N C]; [intros v I; split; [exact (tree_item _ _ HT I)|exact (decorated_item _ _ HD I)]|exact E1|].
         split; [|intros R; constructor; apply C]. eapply noted_iff; [exact N| |]; intros x; [rewrite private_items|rewrite orm_items]; reflexivity. }
    2, 3, 4: apply visit_leaf; try reflexivity; intros R; constructor.
    intros s l s' HT HD E. pose proof (HT (Node k ln fs)) as SH. specialize (SH ltac:(rewrite nodes_node; left; reflexivity)).
    destruct SH as (SN & SC & SF & SA & _ & SI). cbn [kind_of] in SN, SC, SF, SA, SI. cbn [cvisit] in E.
    destruct (String.eqb_spec k "Name") as [->|K1].
    { destruct (SN eq_refl) as (ln' & x & c & EQ). injection EQ as -> ->. injection E as <- <-. split; [|intros R; apply (C_name m R)].
      eapply noted_iff; [apply noted_refl| |]; intros y; (split; [tauto|]).
      - intros (n & I & [_ D] & _). cbn in I. destruct I as [<-|[<-|[]]]; discriminate D.
      - intros (n & c' & kws & I & (D & _) & T). cbn in I. destruct I as [<-|[<-|[]]]; [discriminate D|]. destruct T as (t & ts & F & _). discriminate F. }
    destruct (String.eqb_spec k "Constant") as [->|K2].
    { destruct (SC eq_refl) as (ln' & c & kd & EQ & NK). injection EQ as -> ->. injection E as <- <-. split.
      - eapply noted_iff; [apply noted_refl| |]; intros y; (split; [tauto|]).
        + intros (n & I & [_ D] & _). rewrite nodes_node in I. cbn [flat_map snd nodes] in I. rewrite NK in I. destruct I as [<-|[]]; discriminate D.
        + intros (n & c' & kws & I & (D & _) & T). rewrite nodes_node in I. cbn [flat_map snd nodes] in I. rewrite NK in I. destruct I as [<-|[]]; discriminate D.
      - intros R. unfold number. change (field "value" [("value", Const c); ("kind", kd)]) with (Some (Const c)). cbn iota. destruct c; try (apply (C_constant m R); discriminate). apply (C_float m R). }
    destruct (String.eqb_spec k "FunctionDef") as [->|K3].
    { destruct (SF eq_refl) as (ln' & x & a & b & ds & r & tc & EQ & TC). injection EQ as -> ->. clear SN SC SF SA SI.
      apply bind_inv in E. destruct E as ([nm tail] & s1 & EH & E). apply bind_inv in E. destruct E as (fs' & s2 & E2 & E). injection E as <- <-.
      cbn [String.eqb Ascii.eqb Bool.eqb] in E2.
      apply bind_inv in E2. destruct E2 as (v1 & s3 & E1 & E2). injection E1 as <- <-. apply bind_inv in E2. destruct E2 as (r1 & s3 & E2 & Q). injection Q as <- <-.
      apply bind_inv in E2. destruct E2 as (va & s4 & EA & E2). apply bind_inv in E2. destruct E2 as (r2 & s5 & E2 & Q). injection Q as <- <-.
      apply bind_inv in E2. destruct E2 as (vb & s6 & EB & E2). apply bind_inv in E2. destruct E2 as (r3 & s7 & E2 & Q). injection Q as <- <-.
      apply bind_inv in E2. destruct E2 as (vd & s8 & ED & E2). apply bind_inv in E2. destruct E2 as (r4 & s9 & E2 & Q). injection Q as <- <-.
      apply bind_inv in E2. destruct E2 as (vr & s10 & ER & E2). apply bind_inv in E2. destruct E2 as (r5 & s11 & E2 & Q). injection Q as <- <-.
      apply bind_inv in E2. destruct E2 as (vt & s12 & ET & E2). apply bind_inv in E2. destruct E2 as (r6 & s13 & E2 & Q). injection Q as <- <-. injection E2 as <- <-.
      set (T := Node "FunctionDef" ln' _) in *.
      assert (FLD : forall f v, In (f, v) [("name", Ident x); ("args", a); ("body", b); ("decorator_list", Items ds); ("returns", r); ("type_comment", tc)] -> visit_ok v /\ python_tree v /\ decorated_ok v).
      { intros f v I. rewrite Forall_forall in IH. split; [exact (IH (f, v) I)|]. split; [exact (tree_field _ _ _ (f, v) HT I)|exact (decorated_field _ _ _ (f, v) HD I)]. }
      destruct (FLD "args" a) as (IA & TA & DA); [cbn; auto|]. destruct (FLD "body" b) as (IB & TB & DB); [cbn; auto|]. destruct (FLD "returns" r) as (IR & TR & DR); [cbn; auto 10|]. destruct (FLD "type_comment" tc) as (IT & TT & DT); [cbn; auto 10|].
      destruct (IA _ _ _ TA DA EA) as [NA CA]. destruct (IB _ _ _ TB DB EB) as [NB CB]. destruct (IR _ _ _ TR DR ER) as [NR CR]. destruct (IT _ _ _ TT DT ET) as [NT CT].
      assert (DS : s8 = s6 /\ (ds = [] \/ exists d, ds = [d]) /\ vd = (fun rn => Items (map (fun x : late => x rn) tail))).
      { destruct (HD T ds) as [->|(d & -> & _)]; [unfold T; rewrite nodes_node; left; reflexivity|split; reflexivity| |]; apply bind_inv in ED; destruct ED as (q & s14 & E1 & ED); injection E1 as <- <-; injection ED as <- <-; eauto. }
      destruct DS as (-> & _ & ->).
      assert (PT : forall y, private_name T y <-> (ds = [] /\ y = x) \/ private_name a y \/ private_name b y \/ private_name (Items ds) y \/ private_name r y \/ private_name tc y).
      { intros y. unfold T. rewrite private_node. split.
        - intros [[[_ D] F]|(fv & I & Q)]; [left; injection D as ->; injection F as ->; auto|right]. destruct I as [<-|[<-|[<-|[<-|[<-|[<-|[]]]]]]]; cbn [snd] in Q; auto 10. destruct Q as (n & [] & _).
        - intros [[-> ->]|Q]; [left; split; [split; reflexivity|reflexivity]|right]. decompose [or] Q; [exists ("args", a)|exists ("body", b)|exists ("decorator_list", Items ds)|exists ("returns", r)|exists ("type_comment", tc)]; (split; [cbn; auto 10|assumption]). }
      assert (OT : forall y, orm_name T y <-> orm_name a y \/ orm_name b y \/ orm_name (Items ds) y \/ orm_name r y \/ orm_name tc y).
      { intros y. unfold T. rewrite orm_node. split.
        - intros [(c & kws & (D & _) & _)|(fv & I & Q)]; [discriminate D|]. destruct I as [<-|[<-|[<-|[<-|[<-|[<-|[]]]]]]]; cbn [snd] in Q; auto 10. destruct Q as (n & c & kws & [] & _).
        - intros Q. right. decompose [or] Q; [exists ("args", a)|exists ("body", b)|exists ("decorator_list", Items ds)|exists ("returns", r)|exists ("type_comment", tc)]; (split; [cbn; auto 10|assumption]). }
      assert (NALL : noted s1 s12 (fun y => private_name a y \/ private_name b y \/ private_name r y \/ private_name tc y) (fun y => orm_name a y \/ orm_name b y \/ orm_name r y \/ orm_name tc y)).
      { pose proof (noted_trans _ _ _ _ _ _ _ (noted_trans _ _ _ _ _ _ _ (noted_trans _ _ _ _ _ _ _ NA NB) NR) NT) as Q. eapply noted_iff; [exact Q| |]; intros y; tauto. }
      assert (CALL : forall R, compiled m R a (va R) /\ compiled m R b (vb R) /\ compiled m R r (vr R) /\ vt R = tc).
      { intros R. split; [apply CA|]. split; [apply CB|]. split; [apply CR|]. apply (compiled_comment R tc _ TC), CT. }
      clear NA NB NR NT CA CB CR CT EA EB ER ET ED.
      destruct (HD T ds) as [->|(d & -> & FD)]; [unfold T; rewrite nodes_node; left; reflexivity|split; reflexivity| |].
      - unfold head in EH. change (attrs "decorator_list" T) with (@Ok (list ast) []) in EH. apply bind_inv in EH. destruct EH as (q & s14 & E1 & EH). apply lift_inv in E1. destruct E1 as [Q ->]. injection Q as <-. cbn [rev] in EH.
        change (attr_id "name" T) with (Ok x) in EH. apply bind_inv in EH. destruct EH as (q & s14 & E1 & EH). apply lift_inv in E1. destruct E1 as [Q ->]. injection Q as <-.
        apply bind_inv in EH. destruct EH as (q & s14 & E1 & EH). injection E1 as _ <-. injection EH as <- <- <-. split.
        + destruct NALL as [N1 N2 N3 N4]. constructor; [exact N1|exact N2| |]; intros y; [rewrite N3, PT|rewrite N4, OT].
          * cbn [co_private set_private]. rewrite add_to_iff. pose proof (private_leaf (Items []) y eq_refl). intuition.
          * cbn [co_orm set_private]. pose proof (orm_leaf (Items []) y eq_refl). tauto.
        + intros R. destruct (CALL R) as (C1 & C2 & C3 & C4). cbn [map fst snd app]. rewrite C4. apply (C_private m R); assumption.
      - assert (SD : exists ln0 x0 c0, d = name_of ln0 x0 (Node c0 None [])).
        { assert (QD : In d (nodes d)) by (destruct d; try (destruct FD as [FD|FD]; discriminate FD); rewrite nodes_node; left; reflexivity).
          assert (ID : In d (nodes T)). { unfold T. rewrite nodes_node. right. apply in_flat_map. exists ("decorator_list", Items [d]). split; [cbn; auto 10|]. cbn [snd]. rewrite nodes_items. cbn [flat_map]. rewrite app_nil_r. exact QD. }
          destruct (HT d ID) as (S1 & _ & _ & _ & _ & S2). apply S1. destruct FD as [FD|FD]; exact (S2 _ FD). }
        destruct SD as (ld & xd & cd & ->).
        assert (PD : forall y, ~ private_name (Items [name_of ld xd (Node cd None [])]) y).
        { intros y (n & I & [_ D] & _). cbn in I. destruct I as [<-|[<-|[]]]; discriminate D. }
        assert (OD : forall y, ~ orm_name (Items [name_of ld xd (Node cd None [])]) y).
        { intros y (n & c & kws & I & _ & (t & ts & F & _)). cbn in I. destruct I as [<-|[<-|[]]]; discriminate F. }
        assert (HS : s1 = s /\ ((xd = EXPORT /\ nm = Ident x /\ forall R, map (fun z : late => z R) tail = [the_call None (name_of ld (R (u "__export")) (Node cd None [])) (Items [text m]) (Items [])]) \/ (xd = CONSTRUCT /\ nm = Ident (u "____") /\ tail = []))).
        { unfold head in EH. change (attrs "decorator_list" T) with (@Ok (list ast) [name_of ld xd (Node cd None [])]) in EH. apply bind_inv in EH. destruct EH as (q & s14 & E1 & EH). apply lift_inv in E1. destruct E1 as [Q ->]. injection Q as <-. cbn [rev app] in EH.
          change (attr_id "id" (name_of ld xd (Node cd None []))) with (Ok xd) in EH. change (attr "name" T) with (Ok (Ident x)) in EH. apply bind_inv in EH. destruct EH as (q & s14 & E1 & EH). apply lift_inv in E1. destruct E1 as [Q ->]. injection Q as <-.
          apply bind_inv in EH. destruct EH as (q & s14 & E1 & EH). apply lift_inv in E1. destruct E1 as [Q ->]. injection Q as <-.
          destruct FD as [FD|FD]; injection FD as ->.
          - change (str_eqb (u "export") CONSTRUCT) with false in EH. change (str_eqb (u "export") EXPORT) with true in EH. cbn iota in EH. injection EH as <- <- <-. split; [reflexivity|]. left. split; [reflexivity|]. split; [reflexivity|].
            intros R.
            change (map (fun z : late => z R) _) with [call_node (name_node "Name" ld [("id", Ident (u "__export")); ("ctx", Node cd None [])] R) [str_const m]].
            unfold name_node. change (field "id" [("id", Ident (u "__export")); ("ctx", Node cd None [])]) with (Some (Ident (u "__export"))). reflexivity.
          - change (str_eqb (u "construct") CONSTRUCT) with true in EH. cbn iota in EH. injection EH as <- <- <-. split; [reflexivity|]. right. auto. }
        destruct HS as [-> HS]. split.
        + destruct NALL as [N1 N2 N3 N4]. constructor; [exact N1|exact N2| |]; intros y; [rewrite N3, PT|rewrite N4, OT].
          * pose proof (PD y). assert ([name_of ld xd (Node cd None [])] <> []) by discriminate. tauto.
          * pose proof (OD y). tauto.
        + intros R. destruct (CALL R) as (C1 & C2 & C3 & C4). destruct HS as [(-> & -> & HT')|(-> & -> & ->)].
          * cbn [map fst snd]. rewrite C4, (HT' R). apply (C_export m R); assumption.
          * cbn [map fst snd]. rewrite C4. apply (C_constructor m R); try assumption. reflexivity. }
    (* other nodes *)
    apply bind_inv in E. destruct E as (kws & s1 & EK & E). apply bind_inv in E. destruct E as (fs' & s2 & E2 & E). injection E as <- <-.
    destruct (go_fields kws fs IH) with (s := s1) (fs' := fs') (s' := s2) as [N C]; [intros fv I; split; [exact (tree_field _ _ _ _ HT I)|exact (decorated_field _ _ _ _ HD I)]|exact E2|].
    assert (PN : forall x, private_name (Node k ln fs) x <-> exists fv, In fv fs /\ private_name (snd fv) x).
    { intros x. rewrite private_node. split; [intros [[[K _] _]|H]; [cbn in K; contradiction|exact H]|auto]. }
    destruct (String.eqb_spec k "Assign") as [->|K4].
    - destruct (SA eq_refl) as (ln' & ts & v & tc & EQ & TC). injection EQ as -> ->. change (Node "Assign" ln' [("targets", Items ts); ("value", v); ("type_comment", tc)]) with (assign_node ln' ts v tc) in *.
      unfold orm_keywords in EK. change (attr "value" (assign_node ln' ts v tc)) with (Ok v) in EK. apply bind_inv in EK. destruct EK as (v0 & s3 & E0 & EK). apply lift_inv in E0. destruct E0 as [E0 ->]. injection E0 as <-.
      apply bind_inv in EK. destruct EK as (o & s3 & E0 & EK). apply lift_inv in E0. destruct E0 as [E0 ->]. pose proof (orm_call_spec ln' ts v tc HT) as OS. rewrite E0 in OS.
      destruct o as [c|].
      + destruct OS as (kws0 & OA). assert (OA' := OA). destruct OA' as (_ & _ & v1 & f & FV & KV & FF & KF & FI & FK). injection FV as <-.
        assert (SV : exists lv args, v = the_call lv f args (Items kws0)).
        { assert (IV : In v (nodes (assign_node ln' ts v tc))). { unfold assign_node. rewrite nodes_node. right. apply in_flat_map. exists ("value", v). split; [right; left; reflexivity|]. apply nodes_self. cbn [snd]. rewrite KV. discriminate. }
          destruct (HT v IV) as (_ & _ & _ & _ & SCl & _). destruct (SCl KV) as (lv & f1 & args & kws1 & ->). injection FF as ->. injection FK as ->. eauto. }
        destruct SV as (lv & args & ->). change (attrs "keywords" (the_call lv f args (Items kws0))) with (Ok kws0) in EK. change (attrs "targets" (assign_node ln' ts (the_call lv f args (Items kws0)) tc)) with (Ok ts) in EK.
        apply bind_inv in EK. destruct EK as (q & s3 & E1 & EK). apply lift_inv in E1. destruct E1 as [_ ->]. apply bind_inv in EK. destruct EK as (q' & s3 & E1 & EK). apply lift_inv in E1. destruct E1 as [Q ->]. injection Q as <-.
        destruct ts as [|t ts]; [discriminate EK|]. apply bind_inv in EK. destruct EK as (id & s3 & E1 & EK). apply lift_inv in E1. destruct E1 as [FT ->]. apply attr_id_inv in FT.
        apply bind_inv in EK. destruct EK as (q0 & s3 & E1 & EK). injection E1 as _ <-. injection EK as <- <-.
        assert (TG : first_target (assign_node ln' (t :: ts) (the_call lv f args (Items kws0)) tc) id) by (exists t, ts; split; [reflexivity|exact FT]).
        split.
        * destruct N as [N1 N2 N3 N4]. constructor; [exact N1|exact N2|intros x; rewrite N3, PN; reflexivity|]. intros x. rewrite N4. cbn [co_orm set_orms]. rewrite add_to_iff. unfold assign_node. rewrite orm_node. fold (assign_node ln' (t :: ts) (the_call lv f args (Items kws0)) tc).
          assert (x = id <-> exists c1 k1, orm_assignment (assign_node ln' (t :: ts) (the_call lv f args (Items kws0)) tc) c1 k1 /\ first_target (assign_node ln' (t :: ts) (the_call lv f args (Items kws0)) tc) x); [|tauto].
          split; [intros ->; eauto|]. intros (c1 & k1 & _ & t1 & ts1 & F1 & F2). injection F1 as <- <-. unfold has_field in F2, FT. congruence.
        * intros R. specialize (C R). set (fsR := map (fun fv : string * late => (fst fv, snd fv R)) fs') in *. clearbody fsR. clear - C OA TG TC.
          apply F2_cons in C. destruct C as ([b1 w1'] & l1 & -> & [A1 (w1 & W1 & A2)] & C). apply F2_cons in C. destruct C as ([b2 w2'] & l2 & -> & [B1 (w2 & W2 & B2)] & C).
          apply F2_cons in C. destruct C as ([b3 w3'] & l3 & -> & [D1 (w3 & W3 & D2)] & C). apply F2_nil in C. subst l3. cbn [fst snd] in *. subst b1 b2 b3.
          change (w1' = w1) in A2. change (w2' = append_keywords [keyword_node (u "contract") (str_const m); keyword_node (u "name") (str_const id)] w2) in B2. change (w3' = w3) in D2. subst w1' w2' w3'.
          apply compiled_call in W2. destruct W2 as (f' & args' & kws' & -> & CF & CA & CK). inversion W1; subst.
          apply compiled_comment in W3; [subst w3|exact TC]. eapply (C_orm m R); eassumption.
      + injection EK as <- <-. split.
        * destruct N as [N1 N2 N3 N4]. constructor; [exact N1|exact N2|intros x; rewrite N3, PN; reflexivity|]. intros x. rewrite N4. unfold assign_node. rewrite orm_node. fold (assign_node ln' ts v tc).
          assert (~ exists c kws, orm_assignment (assign_node ln' ts v tc) c kws /\ first_target (assign_node ln' ts v tc) x) by (intros (c & kws & Q & _); exact (OS _ _ Q)). tauto.
        * intros R. specialize (C R). set (fsR := map (fun fv : string * late => (fst fv, snd fv R)) fs') in *. clearbody fsR. clear - C OS TC.
          apply F2_cons in C. destruct C as ([b1 w1'] & l1 & -> & [A1 (w1 & W1 & A2)] & C). apply F2_cons in C. destruct C as ([b2 w2'] & l2 & -> & [B1 (w2 & W2 & B2)] & C).
          apply F2_cons in C. destruct C as ([b3 w3'] & l3 & -> & [D1 (w3 & W3 & D2)] & C). apply F2_nil in C. subst l3. cbn [fst snd] in *. subst b1 b2 b3.
          change (w1' = w1) in A2. change (w2' = w2) in B2. change (w3' = w3) in D2. subst w1' w2' w3'. inversion W1; subst.
          apply compiled_comment in W3; [subst w3|exact TC]. apply (C_assign m R); assumption.
    - injection EK as <- <-. split.
      + destruct N as [N1 N2 N3 N4]. constructor; [exact N1|exact N2|intros x; rewrite N3, PN; reflexivity|]. intros x. rewrite N4, orm_node.
        assert (~ exists c kws, orm_assignment (Node k ln fs) c kws /\ first_target (Node k ln fs) x) by (intros (c & kws & (Q & _) & _); exact (K4 Q)). tauto.
      + intros R. specialize (C R). apply (C_node m R); [cbn; intuition congruence|]. eapply F2_impl; [|exact C]. intros [a1 a2] [b1 b2] [-> (w & W & E)]. cbn [fst snd] in *. subst b2. unfold put. cbn [List.length Nat.eqb negb]. rewrite Bool.andb_false_r. auto.
  Qed.
End Comp.

(** ** The nodes of a compiled tree *)
Definition made (n : ast) : Prop := kind_of n <> "FunctionDef" /\ kind_of n <> "Assign" /\ forall ln s k, n <> constant_node ln (CFloat s) k.
Section Inside.
  Variables (m : pystr) (R : pystr -> pystr).
  Lemma made_text s : made (text s). Proof. split; [discriminate|]. split; [discriminate|]. intros ln x k E. unfold text, constant_node in E. congruence. Qed.
  Lemma made_kind k ln fs : ~ In k ["FunctionDef"; "Assign"; "Constant"] -> made (Node k ln fs).
  Proof. intros H. split; [cbn in *; intuition|]. split; [cbn in *; intuition|]. intros ln' s k' E. injection E as -> _ _. cbn in H. intuition. Qed.
  Lemma made_ctx t c : python_tree t -> In (Node c None []) (nodes t) -> made (Node c None []).
  Proof.
    intros HT I. destruct (HT _ I) as (_ & SC & SF & SA & _). split; [|split].
    - intros K. destruct (SF K) as (ln & x & a & b & ds & r & tc & E & _). discriminate E.
    - intros K. destruct (SA K) as (ln & ts & v & tc & E & _). discriminate E.
    - intros ln s k E. discriminate E.
  Qed.
  Lemma compiled_inside t : forall t', python_tree t -> compiled m R t t' -> forall n', In n' (nodes t') -> (exists n, In n (nodes t) /\ compiled m R n n') \/ made n'.
  Proof.
    induction t as [k ln fs IH|l IH|x|c|] using ast_nested_ind; intros t' HT C n' I.
    2: { inversion C as [| | |l1 l' H| | | | | | | | |]; subst. rewrite nodes_items in I. apply in_flat_map in I. destruct I as (v' & I & J).
         assert (Q : exists v, In v l /\ compiled m R v v'). { clear - H I. induction H as [|a b l l' Hab _ IH]; [destruct I|]. destruct I as [<-|I]; [exists a; split; [left; reflexivity|exact Hab]|]. destruct (IH I) as (v & Iv & Cv). exists v. split; [right; exact Iv|exact Cv]. }
         destruct Q as (v & Iv & Cv). rewrite Forall_forall in IH. destruct (IH v Iv v' (tree_item _ _ HT Iv) Cv n' J) as [(n & In' & Cn)|M]; [left|right; exact M]. exists n. split; [|exact Cn]. rewrite nodes_items. apply in_flat_map. eauto. }
    2, 3, 4: inversion C; subst; destruct I.
    assert (SELF : In (Node k ln fs) (nodes (Node k ln fs))) by (rewrite nodes_node; left; reflexivity).
    assert (FLD : forall f v v', In (f, v) fs -> compiled m R v v' -> In n' (nodes v') -> (exists n, In n (nodes (Node k ln fs)) /\ compiled m R n n') \/ made n').
    { intros f v v' If Cv J. rewrite Forall_forall in IH. destruct (IH (f, v) If v' (tree_field _ _ _ (f, v) HT If) Cv n' J) as [(n & In' & Cn)|M]; [left|right; exact M]. exists n. split; [|exact Cn]. rewrite nodes_node. right. apply in_flat_map. eauto. }
    assert (TC : k = "FunctionDef" \/ k = "Assign" -> forall tc, In ("type_comment", tc) fs -> In n' (nodes tc) -> False).
    { intros K tc It J. destruct (HT _ SELF) as (_ & _ & SF & SA & _). cbn [kind_of] in SF, SA. destruct K as [->| ->].
      - destruct (SF eq_refl) as (ln0 & x & a & b & ds & r & tc0 & E & CM). injection E as -> ->. cbn in It. decompose [or] It; try discriminate; try contradiction. match goal with H : ("type_comment", tc0) = _ |- _ => injection H as -> end. destruct CM as [->|(z & ->)]; destruct J.
      - destruct (SA eq_refl) as (ln0 & ts & v & tc0 & E & CM). injection E as -> ->. cbn in It. decompose [or] It; try discriminate; try contradiction. match goal with H : ("type_comment", tc0) = _ |- _ => injection H as -> end. destruct CM as [->|(z & ->)]; destruct J. }
    inversion C as [| | | |ln0 x ctx|ln0 s k0|ln0 c k0 NF|ln0 x a b r tc a' b' r' CA CB CR|ln0 x a b d r tc a' b' r' FD CA CB CR|ln0 x a b ld ctx r tc a' b' r' CA CB CR|
      ln0 lv f args kws ts tc c x f' args' kws' ts' OA TG CF CA CK CT|ln0 ts v tc ts' v' NO CT CV|k0 ln0 fs0 fs' NK H]; subst.
    - unfold name_of in I. rewrite nodes_node in I. cbn [flat_map snd nodes] in I. rewrite app_nil_r in I. destruct I as [<-|I]; [left; eexists; split; [exact SELF|apply (C_name m R)]|]. right.
      destruct (HT _ SELF) as (SN & _). destruct (SN eq_refl) as (ln1 & y & c & E). injection E as -> _ ->. cbn in I. destruct I as [<-|[]]. apply (made_ctx _ _ HT). cbn. auto.
    - right. cbn in I. destruct I as [<-|[<-|[<-|[<-|[]]]]]; try apply made_text; apply made_kind; cbn; intuition discriminate.
    - unfold constant_node in I. rewrite nodes_node in I. cbn [flat_map snd nodes] in I. destruct (HT _ SELF) as (_ & SC & _). destruct (SC eq_refl) as (ln1 & c1 & k1 & E & NK). injection E as <- <- <-. rewrite NK in I.
      destruct I as [<-|[]]. left. eexists. split; [exact SELF|]. apply (C_constant m R), NF.
    - unfold def_node in I. rewrite nodes_node in I. destruct I as [<-|I]; [left; eexists; split; [exact SELF|]; apply (C_private m R); assumption|].
      apply in_flat_map in I. destruct I as (fv & [<-|[<-|[<-|[<-|[<-|[<-|[]]]]]]] & I); cbn [snd] in I; try (destruct I; fail).
      + eapply (FLD "args"); [|exact CA|exact I]. cbn. auto.
      + eapply (FLD "body"); [|exact CB|exact I]. cbn. auto.
      + eapply (FLD "returns"); [|exact CR|exact I]. cbn. auto 10.
      + exfalso. eapply TC; [auto| |exact I]. cbn. auto 10.
    - unfold def_node in I. rewrite nodes_node in I. destruct I as [<-|I]; [left; eexists; split; [exact SELF|]; apply (C_constructor m R); assumption|].
      apply in_flat_map in I. destruct I as (fv & [<-|[<-|[<-|[<-|[<-|[<-|[]]]]]]] & I); cbn [snd] in I; try (destruct I; fail).
      + eapply (FLD "args"); [|exact CA|exact I]. cbn. auto.
      + eapply (FLD "body"); [|exact CB|exact I]. cbn. auto.
      + eapply (FLD "returns"); [|exact CR|exact I]. cbn. auto 10.
      + exfalso. eapply TC; [auto| |exact I]. cbn. auto 10.
    - unfold def_node in I. rewrite nodes_node in I. destruct I as [<-|I]; [left; eexists; split; [exact SELF|]; apply (C_export m R); assumption|].
      apply in_flat_map in I. destruct I as (fv & [<-|[<-|[<-|[<-|[<-|[<-|[]]]]]]] & I); cbn [snd] in I; try (destruct I; fail).
      + eapply (FLD "args"); [|exact CA|exact I]. cbn. auto.
      + eapply (FLD "body"); [|exact CB|exact I]. cbn. auto.
      + right. rewrite nodes_items in I. cbn [flat_map] in I. rewrite app_nil_r in I. unfold the_call in I. rewrite nodes_node in I. cbn [flat_map snd] in I. destruct I as [<-|I]; [apply made_kind; cbn; intuition discriminate|].
        apply in_app_or in I. destruct I as [I|I].
        * unfold name_of in I. rewrite nodes_node in I. cbn [flat_map snd nodes] in I. rewrite app_nil_r in I. destruct I as [<-|I]; [apply made_kind; cbn; intuition discriminate|].
          assert (ID : In (name_of ld (u "export") ctx) (nodes (Node "FunctionDef" ln [("name", Ident x); ("args", a); ("body", b); ("decorator_list", Items [name_of ld (u "export") ctx]); ("returns", r); ("type_comment", tc)]))).
          { rewrite nodes_node. right. apply in_flat_map. exists ("decorator_list", Items [name_of ld (u "export") ctx]). split; [cbn; auto 10|]. cbn [snd]. rewrite nodes_items. cbn [flat_map]. apply in_or_app. left. left. reflexivity. }
          destruct (HT _ ID) as (SN & _). destruct (SN eq_refl) as (ln1 & y & c & E). injection E as _ _ ->. cbn in I. destruct I as [<-|[]]. apply (made_ctx _ _ HT). apply (nodes_trans _ _ _ ID). cbn. auto.
        * cbn in I. destruct I as [<-|[]]. apply made_text.
      + eapply (FLD "returns"); [|exact CR|exact I]. cbn. auto 10.
      + exfalso. eapply TC; [auto| |exact I]. cbn. auto 10.
    - unfold assign_node in I. rewrite nodes_node in I. destruct I as [<-|I]; [left; eexists; split; [exact SELF|]; eapply (C_orm m R); eassumption|].
      apply in_flat_map in I. destruct I as (fv & [<-|[<-|[<-|[]]]] & I); cbn [snd] in I.
      + eapply (FLD "targets"); [|apply (C_items m R), CT|exact I]. cbn. auto.
      + unfold the_call in I. rewrite nodes_node in I. destruct I as [<-|I]; [right; apply made_kind; cbn; intuition discriminate|].
        assert (CV : compiled m R (the_call lv f args (Items kws)) (the_call lv f' args' (Items kws'))).
        { apply (C_node m R); [cbn; intuition discriminate|]. repeat (constructor; [split; [reflexivity|cbn [snd]; first [assumption|constructor; assumption]]|]). constructor. }
        apply in_flat_map in I. destruct I as (fv & [<-|[<-|[<-|[]]]] & I); cbn [snd] in I.
        * eapply (FLD "value"); [cbn; auto|exact CV|]. unfold the_call. rewrite nodes_node. right. apply in_flat_map. exists ("func", f'). split; [left; reflexivity|exact I].
        * eapply (FLD "value"); [cbn; auto|exact CV|]. unfold the_call. rewrite nodes_node. right. apply in_flat_map. exists ("args", args'). split; [right; left; reflexivity|exact I].
        * rewrite nodes_items, flat_map_app in I. apply in_app_or in I. destruct I as [I|I].
          -- eapply (FLD "value"); [cbn; auto|exact CV|]. unfold the_call. rewrite nodes_node. right. apply in_flat_map. exists ("keywords", Items kws'). split; [right; right; left; reflexivity|]. cbn [snd]. rewrite nodes_items. exact I.
          -- right. cbn in I. destruct I as [<-|[<-|[<-|[<-|[]]]]]; try apply made_text; apply made_kind; cbn; intuition discriminate.
      + exfalso. eapply TC; [auto| |exact I]. cbn. auto 10.
    - unfold assign_node in I. rewrite nodes_node in I. destruct I as [<-|I]; [left; eexists; split; [exact SELF|]; apply (C_assign m R); assumption|].
      apply in_flat_map in I. destruct I as (fv & [<-|[<-|[<-|[]]]] & I); cbn [snd] in I.
      + eapply (FLD "targets"); [|apply (C_items m R), CT|exact I]. cbn. auto.
      + eapply (FLD "value"); [|exact CV|exact I]. cbn. auto.
      + exfalso. eapply TC; [auto| |exact I]. cbn. auto 10.
    - rewrite nodes_node in I. destruct I as [<-|I]; [left; eexists; split; [exact SELF|]; apply (C_node m R); assumption|].
      apply in_flat_map in I. destruct I as ([f' v'] & If & J). cbn [snd] in J.
      assert (Q : exists v, In (f', v) fs /\ compiled m R v v').
      { clear - H If. induction H as [|[a1 a2] [b1 b2] l l' [A1 A2] _ IH]; [destruct If|]. cbn [fst snd] in *. subst b1. destruct If as [E|If]; [injection E as -> ->; exists a2; split; [left; reflexivity|exact A2]|].
        destruct (IH If) as (v & Iv & Cv). exists v. split; [right; exact Iv|exact Cv]. }
      destruct Q as (v & Iv & Cv). exact (FLD f' v v' Iv Cv J).
  Qed.
End Inside.

(** ** Nothing is lost *)
Section Outside.
  Variables (m : pystr) (R : pystr -> pystr).
  Lemma compiled_outside t : forall t', python_tree t -> compiled m R t t' -> forall n, In n (nodes t) -> kind_of n = "FunctionDef" -> exists n', In n' (nodes t') /\ compiled m R n n'.
  Proof.
    induction t as [k ln fs IH|l IH|x|c|] using ast_nested_ind; intros t' HT C n I K.
    2: { inversion C as [| | |l1 l' H| | | | | | | | |]; subst. rewrite nodes_items in I. apply in_flat_map in I. destruct I as (v & I & J).
         assert (Q : exists v', In v' l' /\ compiled m R v v'). { clear - H I. induction H as [|a b l l' Hab _ IH]; [destruct I|]. destruct I as [<-|I]; [exists b; split; [left; reflexivity|exact Hab]|]. destruct (IH I) as (v' & Iv & Cv). exists v'. split; [right; exact Iv|exact Cv]. }
         destruct Q as (v' & Iv & Cv). rewrite Forall_forall in IH. destruct (IH v I v' (tree_item _ _ HT I) Cv n J K) as (n' & In' & Cn). exists n'. split; [|exact Cn]. rewrite nodes_items. apply in_flat_map. eauto. }
    2, 3, 4: destruct I.
    assert (SELF : In (Node k ln fs) (nodes (Node k ln fs))) by (rewrite nodes_node; left; reflexivity).
    rewrite nodes_node in I. destruct I as [<-|I]; [exists t'; split; [|exact C]; inversion C; subst; try discriminate K; try (unfold def_node; rewrite nodes_node; left; reflexivity); rewrite nodes_node; left; reflexivity|].
    apply in_flat_map in I. destruct I as ([f v] & If & J). cbn [snd] in J.
    assert (FLD : forall v', compiled m R v v' -> exists n', In n' (nodes v') /\ compiled m R n n').
    { intros v' Cv. rewrite Forall_forall in IH. exact (IH (f, v) If v' (tree_field _ _ _ (f, v) HT If) Cv n J K). }
    assert (CTX : forall c, In (Node c None []) (nodes (Node k ln fs)) -> n <> Node c None []).
    { intros c Ic ->. destruct (HT _ Ic) as (_ & _ & SF & _). destruct (SF K) as (ln1 & x & a & b & ds & r & tc & E & _). discriminate E. }
    assert (TC : k = "FunctionDef" \/ k = "Assign" -> f = "type_comment" -> False).
    { intros K' ->. destruct (HT _ SELF) as (_ & _ & SF & SA & _). cbn [kind_of] in SF, SA. destruct K' as [->| ->].
      - destruct (SF eq_refl) as (ln0 & x & a & b & ds & r & tc0 & E & CM). injection E as -> ->. cbn in If. decompose [or] If; try discriminate; try contradiction. match goal with H : ("type_comment", tc0) = _ |- _ => injection H as -> end. destruct CM as [->|(z & ->)]; destruct J.
      - destruct (SA eq_refl) as (ln0 & ts & w & tc0 & E & CM). injection E as -> ->. cbn in If. decompose [or] If; try discriminate; try contradiction. match goal with H : ("type_comment", tc0) = _ |- _ => injection H as -> end. destruct CM as [->|(z & ->)]; destruct J. }
    assert (UP : forall v' k' ln' fs', In v' (map snd fs') -> compiled m R v v' -> exists n', In n' (nodes (Node k' ln' fs')) /\ compiled m R n n').
    { intros v' k' ln' fs' I' Cv. destruct (FLD v' Cv) as (n' & In' & Cn). exists n'. split; [|exact Cn]. rewrite nodes_node. right. apply in_map_iff in I'. destruct I' as (fv & <- & I'). apply in_flat_map. eauto. }
    assert (DECO : forall d l, f = "decorator_list" -> v = Items [d] -> has_field d "id" l -> In v (map snd fs) -> False).
    { intros d l0 -> -> FD _. assert (ID : In d (nodes (Node k ln fs))).
      { rewrite nodes_node. right. apply in_flat_map. exists ("decorator_list", Items [d]). split; [exact If|]. cbn [snd]. rewrite nodes_items. cbn [flat_map]. apply in_or_app. left. destruct d; try discriminate FD. rewrite nodes_node. left. reflexivity. }
      destruct (HT d ID) as (SN & _ & _ & _ & _ & SI). destruct (SN (SI _ FD)) as (ln1 & x1 & c1 & ->). cbn in J. destruct J as [<-|[<-|[]]]; [discriminate K|]. apply (CTX c1); [|reflexivity].
      apply (nodes_trans _ _ _ ID). cbn. auto. }
    inversion C as [| | | |ln0 x ctx|ln0 s k0|ln0 c k0 NF|ln0 x a b r tc a' b' r' CA CB CR|ln0 x a b d r tc a' b' r' FD CA CB CR|ln0 x a b ld ctx r tc a' b' r' CA CB CR|
      ln0 lv f0 args kws ts tc c x f' args' kws' ts' OA TG CF CA CK CT|ln0 ts w tc ts' w' NO CT CV|k0 ln0 fs0 fs' NK H]; subst.
    - exfalso. destruct (HT _ SELF) as (SN & _). destruct (SN eq_refl) as (ln1 & y & c & E). injection E as -> _ ->. destruct If as [E|[E|[]]]; injection E as <- <-; [destruct J|]. cbn in J. destruct J as [<-|[]]. apply (CTX c); [|reflexivity]. cbn. auto.
    - exfalso. destruct (HT _ SELF) as (_ & SC & _). destruct (SC eq_refl) as (ln1 & c1 & k1 & E & NK). injection E as <- <- <-. destruct If as [E|[E|[]]]; injection E as <- <-; [destruct J|]. rewrite NK in J. destruct J.
    - exfalso. destruct (HT _ SELF) as (_ & SC & _). destruct (SC eq_refl) as (ln1 & c1 & k1 & E & NK). injection E as <- <- <-. destruct If as [E|[E|[]]]; injection E as <- <-; [destruct J|]. rewrite NK in J. destruct J.
    - destruct If as [E|[E|[E|[E|[E|[E|[]]]]]]]; injection E as <- <-; try (destruct J; fail).
      + apply (UP a'); [cbn; auto|exact CA].
      + apply (UP b'); [cbn; auto|exact CB].
      + apply (UP r'); [cbn; auto 10|exact CR].
      + exfalso. apply TC; auto.
    - destruct If as [E|[E|[E|[E|[E|[E|[]]]]]]]; injection E as <- <-; try (destruct J; fail).
      + apply (UP a'); [cbn; auto|exact CA].
      + apply (UP b'); [cbn; auto|exact CB].
      + exfalso. eapply DECO; [reflexivity|reflexivity|exact FD|]. cbn. auto 10.
      + apply (UP r'); [cbn; auto 10|exact CR].
      + exfalso. apply TC; auto.
    - destruct If as [E|[E|[E|[E|[E|[E|[]]]]]]]; injection E as <- <-; try (destruct J; fail).
      + apply (UP a'); [cbn; auto|exact CA].
      + apply (UP b'); [cbn; auto|exact CB].
      + exfalso. eapply (DECO (name_of ld (u "export") ctx)); [reflexivity|reflexivity|reflexivity|]. cbn. auto 10.
      + apply (UP r'); [cbn; auto 10|exact CR].
      + exfalso. apply TC; auto.
    - destruct If as [E|[E|[E|[]]]]; injection E as <- <-.
      + apply (UP (Items ts')); [cbn; auto|apply (C_items m R), CT].
      + assert (CV : compiled m R (the_call lv f0 args (Items kws)) (the_call lv f' args' (Items kws'))).
        { apply (C_node m R); [cbn; intuition discriminate|]. repeat (constructor; [split; [reflexivity|cbn [snd]; first [assumption|constructor; assumption]]|]). constructor. }
        destruct (FLD _ CV) as (n' & In' & Cn). exists n'. split; [|exact Cn]. unfold assign_node. rewrite nodes_node. right. apply in_flat_map. eexists. split; [right; left; reflexivity|]. cbn [snd].
        unfold the_call in *. rewrite nodes_node in *. destruct In' as [<-|In']; [exfalso; inversion Cn; subst; discriminate K|]. right. apply in_flat_map in In'. destruct In' as (fv & I1 & I2). apply in_flat_map.
        destruct I1 as [<-|[<-|[<-|[]]]]; cbn [snd] in I2; [exists ("func", f')|exists ("args", args')|eexists ("keywords", _)]; (split; [cbn [In]; auto|]); cbn [snd]; try exact I2.
        rewrite nodes_items in I2. rewrite nodes_items, flat_map_app. apply in_or_app. left. exact I2.
      + exfalso. apply TC; auto.
    - destruct If as [E|[E|[E|[]]]]; injection E as <- <-.
      + apply (UP (Items ts')); [cbn; auto|apply (C_items m R), CT].
      + apply (UP w'); [cbn; auto|exact CV].
      + exfalso. apply TC; auto.
    - assert (Q : exists v', In v' (map snd fs') /\ compiled m R v v').
      { clear - H If. induction H as [|[a1 a2] [b1 b2] l l' [A1 A2] _ IH]; [destruct If|]. cbn [fst snd] in *. subst b1. destruct If as [E|If]; [injection E as -> ->; exists b2; split; [left; reflexivity|exact A2]|].
        destruct (IH If) as (v' & Iv & Cv). exists v'. split; [right; exact Iv|exact Cv]. }
      destruct Q as (v' & Iv & Cv). exact (UP v' k ln fs' Iv Cv).
  Qed.
End Outside.
