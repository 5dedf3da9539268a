(** * The expressions of main.cpp have types *)
From Verif Require Export StaticMain SpecTypes.
From Verif Require Export StmProofs.

Lemma cty_eqb_refl t : cty_eqb t t = true.
Proof. by apply bool_decide_eq_true. Qed.

(** ** Equations *)
Section Eqs.
  Context (u : user_types) (h : list item) (p : list citem) (cls : option gostr) (ret : cty).
  Notation ex := (ty_expr u h p cls).
  Notation st := (ty_stmt u h p cls ret).
  Notation bl := (ty_block u h p cls ret).
  Lemma tys_fix vars l : (fix types (l : list expr) {struct l} : option (list cty) :=
        match l with [] => Some [] | e :: r => t ← ex vars e; ts ← types r; Some (t :: ts) end) l = mapM (ex vars) l.
  Proof. induction l as [|e l IH]; [done|]. cbn. destruct (ex vars e); [|done]. cbn. by rewrite IH. Qed.
  Definition ty_ops (vars : cvars) : cty -> list (bop * expr) -> option cty := fix ops (t : cty) (l : list (bop * expr)) {struct l} : option cty :=
    match l with [] => Some t | (o, e) :: r => b ← ex vars e; t ← op_type u p o t b (is_target h p cls vars e); ops t r end.
  Lemma ty_ops_eq vars e l : ex vars (EOps e l) = t ← ex vars e; ty_ops vars t l.
  Proof. reflexivity. Qed.
  Lemma ty_name vars q : ex vars (EName q) = snd <$> name_ty h p cls vars q. Proof. done. Qed.
  Lemma ty_call vars q args ts t : log_macro q && negb (has_method (methods_of p cls) (default [] (head q))) = false -> mapM (ex vars) args = Some ts -> fun_call u h p cls q ts = Some t -> ex vars (MainAst.call q args) = Some t.
  Proof. intros H1 H2 H3. unfold MainAst.call. cbn [ty_expr]. rewrite tys_fix, H1, H2. cbn [mbind option_bind]. by rewrite H3. Qed.
  Lemma ty_mcall vars o m args b t ts r : name_ty h p cls vars [o] = Some (b, t) -> mapM (ex vars) args = Some ts -> method_call u h p t m None ts = Some r -> ex vars (mcall o m args) = Some r.
  Proof. intros H1 H2 H3. unfold mcall. cbn [ty_expr]. rewrite tys_fix, H1, H2. cbn [fmap option_fmap option_map mbind option_bind snd]. by rewrite H3. Qed.
  Lemma ty_log_call vars q e l t t' : log_macro q = true -> has_method (methods_of p cls) (default [] (head q)) = false -> ex vars e = Some t -> printed u t = true ->
    ty_ops vars TOut l = Some t' -> ex vars (MainAst.call q [EOps e l]) = Some TVoid.
  Proof.
    intros H1 H2 H3 H4 H5. unfold MainAst.call. cbn [ty_expr]. rewrite H1, H2, H3. cbn [andb negb mbind option_bind op_type]. rewrite cty_eqb_refl, H4. cbn [andb mbind option_bind].
    change ((fix ops (t : cty) (l : list (bop * expr)) {struct l} : option cty :=
    match l with [] => Some t | (o, e) :: r => b ← ex vars e; t ← op_type u p o t b (is_target h p cls vars e); ops t r end) TOut l) with (ty_ops vars TOut l). by rewrite H5.
  Qed.
  Lemma ty_shl vars l : Forall (fun e => exists t, ex vars e = Some t /\ printed u t = true) l -> ty_ops vars TOut (shl l) = Some TOut.
  Proof. induction 1 as [|e l (t & H1 & H2) _ IH]; [done|]. cbn. rewrite H1. cbn. rewrite H2. exact IH. Qed.
  Lemma block_ty_fix vars l : (fix block (vars : cvars) (l : list stmt) {struct l} : bool :=
        match l with [] => true | s :: r => st vars s && match binds u h p cls vars s with Some b => block (b ++ vars) r | None => false end end) vars l = bl vars l.
  Proof. revert vars. induction l as [|s l IH]; [done|]. intros vars. cbn. destruct (binds u h p cls vars s); [by rewrite IH|done]. Qed.
  Lemma ty_block_eq vars b : st vars (SBlock b) = bl vars b.
  Proof. apply block_ty_fix. Qed.
  Lemma ty_switch vars e cases t : ex vars e = Some t -> enum_ty p t = true -> Forall (fun c => label_ok p t c.1 = true /\ bl vars c.2 = true) cases -> st vars (SSwitch e cases) = true.
  Proof.
    intros H1 H2 H3. cbn. rewrite H1, H2. cbn [andb]. pose proof block_ty_fix as B. induction H3 as [|[c b] cs [L1 L2] _ IH]; [done|]. cbn [fst snd] in *. rewrite B, L1, L2. exact IH.
  Qed.
  Lemma ty_block_all vars l : Forall (fun s => binds u h p cls vars s = Some [] /\ st vars s = true) l -> bl vars l = true.
  Proof. induction 1 as [|s l [H1 H2] _ IH]; [done|]. cbn [ty_block]. by rewrite H1, H2. Qed.
  Lemma ty_block_app vars a b : Forall (fun s => binds u h p cls vars s = Some [] /\ st vars s = true) a -> bl vars b = true -> bl vars (a ++ b) = true.
  Proof. induction 1 as [|s l [H1 H2] _ IH]; [done|]. cbn [ty_block app]. rewrite H1, H2. exact IH. Qed.
  Lemma ty_if vars c a b : ex vars c = Some TBool -> st vars a = true -> match b with Some b => st vars b = true | None => True end -> st vars (SIf c a b) = true.
  Proof. intros H1 H2 H3. cbn. unfold is_bool. rewrite H1, H2. rewrite bool_decide_eq_true_2 by done. by destruct b. Qed.
  Lemma ty_eq vars a b x y : ex vars a = Some x -> ex vars b = Some y -> compared p x y = true -> ex vars (e_eq a b) = Some TBool.
  Proof. intros H1 H2 H3. unfold e_eq. rewrite ty_ops_eq, H1. cbn [mbind option_bind ty_ops]. rewrite H2. cbn [mbind option_bind op_type]. by rewrite H3. Qed.
  Lemma ty_ne vars a b x y : ex vars a = Some x -> ex vars b = Some y -> compared p x y = true -> ex vars (e_ne a b) = Some TBool.
  Proof. intros H1 H2 H3. unfold e_ne. rewrite ty_ops_eq, H1. cbn [mbind option_bind ty_ops]. rewrite H2. cbn [mbind option_bind op_type]. by rewrite H3. Qed.
  Lemma ty_assign_ok vars x e t a : name_ty h p cls vars [x] = Some (true, t) -> ex vars e = Some a -> converts u a t = true -> st vars (SAssign (nm x) e) = true.
  Proof. intros H1 H2 H3. cbn [ty_stmt]. unfold ty_assign, nm. rewrite H1. unfold gives. by rewrite H2. Qed.
  Lemma ty_expr_stmt vars e t : ex vars e = Some t -> st vars (SExpr e) = true.
  Proof. intros H. cbn. rewrite H. by apply bool_decide_eq_true. Qed.
  Lemma ty_var vars x b t : look vars x = Some (b, t) -> name_ty h p cls vars [x] = Some (b, t).
  Proof. intros H. cbn. by rewrite H. Qed.
  Lemma ty_nm vars x b t : name_ty h p cls vars [x] = Some (b, t) -> ex vars (nm x) = Some t.
  Proof. intros H. unfold nm. rewrite ty_name, H. done. Qed.
  Lemma ty_prelude vars q : existsb (path_eqb q) prelude_enums = true -> length q = 3 -> ex vars (EName q) = Some (TClass (removelast q)).
  Proof. intros H1 H2. rewrite ty_name. destruct q as [|a [|b [|c [|]]]]; try discriminate H2. unfold name_ty. by rewrite H1. Qed.
  Lemma xt_status vars s : ex vars (status_q (status_text s)) = Some status_ty.
  Proof. unfold status_q, nm3. rewrite ty_prelude; [done|by destruct s|done]. Qed.
  Lemma ty_outcome vars o : o ∈ [lit "UNSET"; lit "INC"; lit "PASS"; lit "FAIL"] -> ex vars (outcome_q o) = Some outcome_ty.
  Proof. intros Ho. unfold outcome_q, nm3. rewrite ty_prelude; [done| |done]. rewrite !elem_of_cons, elem_of_nil in Ho. destruct Ho as [->|[->|[->|[->|[]]]]]; by vm_compute. Qed.
  Lemma xt_enum vars s : own_enumerator p [lit "State"; s] = true -> ex vars (nm2 (lit "State") s) = Some (TClass [lit "State"]).
  Proof. intros H. unfold nm2. rewrite ty_name. unfold name_ty. rewrite H, orb_true_r. done. Qed.
  Lemma xt_out vars x : x = lit "cout" \/ x = lit "cerr" -> own_enumerator p [lit "std"; x] = false -> ex vars (nm2 (lit "std") x) = Some TOut.
  Proof. intros Hx H. unfold nm2. rewrite ty_name. unfold name_ty. rewrite H. by destruct Hx as [-> | ->]. Qed.
  Lemma ty_endl vars : own_enumerator p [lit "std"; lit "endl"] = false -> ex vars endl = Some TEndl.
  Proof. intros H. unfold endl, nm2. rewrite ty_name. unfold name_ty. by rewrite H. Qed.
  Lemma ty_log v level s ps vars : level = info \/ level = err -> (forall x, own_enumerator p [lit "std"; x] = false) ->
    has_method (methods_of p cls) (lit "ROS_" ++ to_upper level ++ lit "_STREAM") = false -> Forall (fun e => exists t, ex vars e = Some t /\ printed u t = true) ps ->
    st vars (a_log v level (EStr s) ps) = true.
  Proof.
    intros Hl Hs Hm Hps.
    assert (Hp : Forall (fun e => exists t, ex vars e = Some t /\ printed u t = true) (ps ++ [endl])).
    { apply Forall_app. split; [done|]. constructor; [|constructor]. exists TEndl. split; [by apply ty_endl|done]. }
    assert (Hstr : forall x, exists t, ex vars (EStr x) = Some t /\ printed u t = true) by (intros x; by exists TCStr).
    assert (Hr : st vars (SExpr (EOps (nm2 (lit "std") (lit "cerr")) (shl (EStr (lit "[" ++ level ++ lit "] ") :: EStr s :: ps ++ [endl])))) = true).
    { eapply ty_expr_stmt. rewrite ty_ops_eq, xt_out by auto. cbn [mbind option_bind]. apply ty_shl. constructor; [apply Hstr|]. constructor; [apply Hstr|]. done. }
    unfold a_log. destruct v; [exact Hr| |exact Hr]. unfold ecall. eapply ty_expr_stmt. eapply ty_log_call; [by destruct Hl as [-> | ->]|exact Hm|done|done|]. by apply ty_shl.
  Qed.
  Lemma log_binds v level e ps vars : binds u h p cls vars (a_log v level e ps) = Some [].
  Proof. by destruct v. Qed.
  Lemma log_both v level s ps vars : level = info \/ level = err -> (forall x, own_enumerator p [lit "std"; x] = false) ->
    has_method (methods_of p cls) (lit "ROS_" ++ to_upper level ++ lit "_STREAM") = false -> Forall (fun e => exists t, ex vars e = Some t /\ printed u t = true) ps ->
    binds u h p cls vars (a_log v level (EStr s) ps) = Some [] /\ st vars (a_log v level (EStr s) ps) = true.
  Proof. intros. split; [apply log_binds|by apply ty_log]. Qed.
End Eqs.

(** ** Methods and fields *)
Definition no_labels (ms : list member) : Prop := Forall (fun i => match i with MLabel _ => False | _ => True end) ms.
Lemma find_method_skip pub a r m : no_labels a -> m ∉ method_names a -> find_method pub (a ++ r) m = find_method pub r m.
Proof.
  induction a as [|i a IH]; [done|]. intros H. apply Forall_cons in H as [H1 H2]. destruct i as [|[t|] x ps|]; [done| | |]; cbn.
  - rewrite elem_of_cons. intros Hm. destruct (str_eqb x m) eqn:E; [apply bool_decide_eq_true in E; exfalso; apply Hm; by left|]. apply IH; [done|]. intros H. apply Hm. by right.
  - by apply IH.
  - by apply IH.
Qed.
Lemma find_method_in pub a r m t ps : no_labels a -> NoDup (method_names a) -> MMethod (Some t) m ps ∈ a -> find_method pub (a ++ r) m = Some (pub, (t, map fst ps)).
Proof.
  induction a as [|i a IH]; [by intros _ _ H%elem_of_nil|]. intros H. apply Forall_cons in H as [H1 H2]. rewrite elem_of_cons. intros Hnd [<-|Hi].
  - cbn. by rewrite str_eqb_refl.
  - destruct i as [|[t'|] x ps'|]; [done| | |]; cbn in *.
    + apply NoDup_cons in Hnd as [Hx Hnd]. destruct (str_eqb x m) eqn:E; [|by apply IH]. apply bool_decide_eq_true in E as ->. exfalso. apply Hx. apply elem_of_list_omap. by exists (MMethod (Some t) m ps).
    + by apply IH.
    + by apply IH.
Qed.
Lemma find_method_none pub ms m : m ∉ method_names ms -> find_method pub ms m = None.
Proof.
  revert pub. induction ms as [|i a IH]; intros pub; [done|]. destruct i as [|[t|] x ps|]; cbn; try apply IH. rewrite elem_of_cons. intros Hm.
  destruct (str_eqb x m) eqn:E; [apply bool_decide_eq_true in E; exfalso; apply Hm; by left|]. apply IH. intros H. apply Hm. by right.
Qed.
Lemma find_field_in ms t x i : NoDup (field_names ms) -> MField t x i ∈ ms -> find_field ms x = Some t.
Proof.
  induction ms as [|j a IH]; [by intros _ H%elem_of_nil|]. rewrite elem_of_cons. intros Hnd [<-|Hi].
  - cbn. by rewrite str_eqb_refl.
  - destruct j as [| |t' y i']; cbn in *; [by apply IH..|]. apply NoDup_cons in Hnd as [Hx Hnd]. destruct (str_eqb y x) eqn:E; [|by apply IH].
    apply bool_decide_eq_true in E as ->. exfalso. apply Hx. apply elem_of_list_omap. by exists (MField t x i).
Qed.
Lemma find_field_none ms x : x ∉ field_names ms -> find_field ms x = None.
Proof.
  induction ms as [|j a IH]; [done|]. destruct j as [| |t' y i']; cbn; [apply IH..|]. rewrite elem_of_cons. intros Hm.
  destruct (str_eqb y x) eqn:E; [apply bool_decide_eq_true in E; exfalso; apply Hm; by left|]. apply IH. intros H. apply Hm. by right.
Qed.
