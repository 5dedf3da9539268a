(** * The interpreter of SpecRun.v: equations and lemmas *)
From Verif Require Export SpecRun MainAst LitProofs.
From Verif Require Export StmProofs.

Lemma str_eqb_refl a : str_eqb a a = true.
Proof. by apply bool_decide_eq_true_2. Qed.
Lemma str_eqb_ne a b : a <> b -> str_eqb a b = false.
Proof. apply bool_decide_eq_false_2. Qed.
Lemma path_eqb_refl a : path_eqb a a = true.
Proof. by apply bool_decide_eq_true_2. Qed.
Lemma path_eqb_ne a b : a <> b -> path_eqb a b = false.
Proof. apply bool_decide_eq_false_2. Qed.
Lemma path_eqb_3 a b c c' : path_eqb [a; b; c] [a; b; c'] = str_eqb c c'.
Proof. unfold path_eqb, str_eqb. apply bool_decide_ext. split; [by intros [= ->]|by intros ->]. Qed.
Lemma path_eqb_2 a c c' : path_eqb [a; c] [a; c'] = str_eqb c c'.
Proof. unfold path_eqb, str_eqb. apply bool_decide_ext. split; [by intros [= ->]|by intros ->]. Qed.

Lemma set_vars_id w : set_vars (w_vars w) w = w.
Proof. by destruct w. Qed.
Lemma set_vars_vars x y w : set_vars x (set_vars y w) = set_vars x w.
Proof. done. Qed.
Lemma set_vars_eq w vs : w_vars w = vs -> set_vars vs w = w.
Proof. intros <-. apply set_vars_id. Qed.

Section Eqs.
  Context (p : list citem) (conv : gostr -> cval -> option cval) (rounds : nat).
  Context (call : self -> list gostr -> list cval -> world -> result cval) (this : self).
  Notation eval := (SpecRun.eval p conv call this).
  Notation evals := (SpecRun.evals p conv call this).
  Notation exec := (SpecRun.exec p conv rounds call this).
  Notation execs := (SpecRun.execs p conv rounds call this).
  Fixpoint parts (l : list (bop * expr)) (w : world) : result (list cval) :=
    match l with
    | [] => Fine [] w
    | (OpShl, e) :: r => '(v, w) <~ eval e w; '(vs, w) <~ parts r w; Fine (v :: vs) w
    | _ :: _ => Fault
    end.
  Fixpoint bins (a : cval) (l : list (bop * expr)) (w : world) : result cval :=
    match l with
    | [] => Fine a w
    | (o, e) :: r => '(b, w) <~ eval e w; '(c, w) <~ opt (bin o a b) w; bins c r w
    end.
  Fixpoint posts (v : cval) (l : list post) (w : world) {struct l} : result cval :=
    match l with
    | [] => Fine v w
    | XDot m :: XCall args :: r => '(vs, w) <~ evals args w; '(v, w) <~ call_member p call v m vs w; posts v r w
    | XDot m :: XInst _ :: XCall args :: r => '(vs, w) <~ evals args w; '(v, w) <~ call_member p call v m vs w; posts v r w
    | _ => Fault
    end.
  Lemma posts_call v m args r w : posts v (XDot m :: XCall args :: r) w =
    rbind (evals args w) (fun vs w => rbind (call_member p call v m vs w) (fun v w => posts v r w)).
  Proof. reflexivity. Qed.
  Lemma posts_inst v m t args r w : posts v (XDot m :: XInst t :: XCall args :: r) w =
    rbind (evals args w) (fun vs w => rbind (call_member p call v m vs w) (fun v w => posts v r w)).
  Proof. reflexivity. Qed.
  Lemma eval_ops e l w : eval (EOps e l) w =
    rbind (eval e w) (fun v w =>
    match v with
    | VOstream s => '(vs, w) <~ parts l w; Fine (VOstream s) (put_out (FPrint s vs) w)
    | VCin => match l with [(OpShr, EName [x])] => read_var this x w | _ => Fault end
    | _ => bins v l w
    end).
  Proof. reflexivity. Qed.
  Lemma eval_log q e l w : log_macro q = true -> eval (EPost (EName q) [XCall [EOps e l]]) w =
    rbind (eval e w) (fun v w => rbind (parts l w) (fun vs w => Fine VUnit (put_out (FPrint (concat q) (v :: vs)) w))).
  Proof.
    intros H. transitivity (if log_macro q then rbind (eval e w) (fun v w => rbind (parts l w) (fun vs w => Fine VUnit (put_out (FPrint (concat q) (v :: vs)) w)))
      else rbind (evals [EOps e l] w) (fun vs w => rbind (call_named p conv call this q vs w) (fun v w => posts v [] w))); [reflexivity|]. by rewrite H.
  Qed.
  Lemma eval_call q args r w : log_macro q = false -> eval (EPost (EName q) (XCall args :: r)) w =
    rbind (evals args w) (fun vs w => rbind (call_named p conv call this q vs w) (fun v w => posts v r w)).
  Proof.
    intros H. transitivity (if log_macro q then
      match args, r with
      | [EOps e l], [] => rbind (eval e w) (fun v w => rbind (parts l w) (fun vs w => Fine VUnit (put_out (FPrint (concat q) (v :: vs)) w)))
      | _, _ => Fault
      end
      else rbind (evals args w) (fun vs w => rbind (call_named p conv call this q vs w) (fun v w => posts v r w))); [reflexivity|]. by rewrite H.
  Qed.
  Lemma eval_dot q m l w : eval (EPost (EName q) (XDot m :: l)) w = rbind (eval (EName q) w) (fun v w => posts v (XDot m :: l) w).
  Proof. reflexivity. Qed.
  Lemma exec_block b w : exec (SBlock b) w = rbind (execs b w) (fun f w' => Fine f (leave (w_vars w) w')).
  Proof. reflexivity. Qed.
  Section From.
  Context (k : list gostr) (found : bool) (w0 : world).
  Fixpoint from (started : bool) (cases : list (option expr * list stmt)) (w : world) {struct cases} : result flow :=
    match cases with
    | [] => Fine Go w
    | (c, b) :: r =>
      if started || (if found then label_is p this k c w0 else match c with None => true | Some _ => false end)
      then '(f, w) <~ execs b w; match f with Go => from true r w | Brk => Fine Go w | Ret v => Fine (Ret v) w end
      else from false r w
    end.
  End From.
  Lemma exec_switch e cases w k w1 : eval e w = Fine (VEnum k) w1 -> forallb (fun c => label_ok p this c.1 w1) cases = true ->
    exec (SSwitch e cases) w =
    rbind (from k (existsb (fun c => label_is p this k c.1 w1) cases) w1 false cases w1) (fun f w' => Fine f (leave (w_vars w1) w')).
  Proof.
    intros H1 H2. change (exec (SSwitch e cases) w) with (rbind (eval e w) (fun v w =>
        match v with
        | VEnum k => if forallb (fun c => label_ok p this c.1 w) cases then
            rbind (from k (existsb (fun c => label_is p this k c.1 w) cases) w false cases w) (fun f w' => Fine f (leave (w_vars w) w')) else Fault
        | _ => Fault
        end)). rewrite H1. cbn [rbind]. by rewrite H2.
  Qed.
  Lemma from_skip k (found : bool) w0 l r w : Forall (fun c : option expr * list stmt => (if found then label_is p this k c.1 w0 else match c.1 with None => true | Some _ => false end) = false) l ->
    from k found w0 false (l ++ r) w = from k found w0 false r w.
  Proof. induction 1 as [|[c b] l H _ IH]; [done|]. cbn [app]. cbn [fst] in H. cbn [from orb]. rewrite H. exact IH. Qed.
  Lemma switch_hit e k w l1 e' b l2 f w' : eval e w = Fine (VEnum k) w -> label p this e' w = Some k ->
    Forall (fun c : option expr * list stmt => label_ok p this c.1 w = true) (l1 ++ (Some e', b) :: l2) -> Forall (fun c : option expr * list stmt => label_is p this k c.1 w = false) l1 ->
    execs b w = Fine f w' -> f <> Go -> exec (SSwitch e (l1 ++ (Some e', b) :: l2)) w = Fine (match f with Brk => Go | _ => f end) (leave (w_vars w) w').
  Proof.
    intros H1 H2 H3 H4 H5 H6. rewrite (exec_switch _ _ _ _ _ H1).
    2: { apply forallb_forall. intros c Hc. apply (proj1 (Forall_forall _ _) H3). by apply elem_of_list_In. }
    assert (Hl : label_is p this k (Some e') w = true) by (unfold label_is; rewrite H2; apply path_eqb_refl).
    assert (existsb (fun c => label_is p this k c.1 w) (l1 ++ (Some e', b) :: l2) = true) as ->.
    { rewrite existsb_app. cbn [existsb fst]. by rewrite Hl, orb_true_r. }
    rewrite from_skip by done. cbn [from orb]. rewrite Hl, H5. cbn [rbind]. by destruct f.
  Qed.
  Lemma switch_default e k w l b f w' : eval e w = Fine (VEnum k) w ->
    Forall (fun c : option expr * list stmt => is_Some c.1 /\ label_ok p this c.1 w = true /\ label_is p this k c.1 w = false) l ->
    execs b w = Fine f w' -> f <> Brk -> exec (SSwitch e (l ++ [(None, b)])) w = Fine f (leave (w_vars w) w').
  Proof.
    intros H1 H3 H5 H6. pose proof (proj1 (Forall_forall _ _) H3) as H3'. rewrite (exec_switch _ _ _ _ _ H1).
    2: { apply forallb_forall. intros c Hc. apply elem_of_list_In, elem_of_app in Hc as [Hc|Hc]; [by apply H3'|]. apply elem_of_list_singleton in Hc as ->. done. }
    assert (existsb (fun c => label_is p this k c.1 w) (l ++ [(None, b)]) = false) as ->.
    { apply not_true_iff_false. intros (c & Hc & E)%existsb_exists. apply elem_of_list_In, elem_of_app in Hc as [Hc|Hc].
      - destruct (H3' c Hc) as (_ & _ & E'). congruence.
      - apply elem_of_list_singleton in Hc as ->. discriminate E. }
    rewrite from_skip. 2: { apply Forall_forall. intros c Hc. destruct (H3' c Hc) as ([x ->] & _). done. }
    cbn [from orb]. rewrite H5. cbn [rbind]. by destruct f.
  Qed.
  Lemma switch_none e k w l : eval e w = Fine (VEnum k) w ->
    Forall (fun c : option expr * list stmt => is_Some c.1 /\ label_ok p this c.1 w = true /\ label_is p this k c.1 w = false) l -> exec (SSwitch e l) w = Fine Go (leave (w_vars w) w).
  Proof.
    intros H1 H3. pose proof (proj1 (Forall_forall _ _) H3) as H3'. rewrite (exec_switch _ _ _ _ _ H1).
    2: { apply forallb_forall. intros c Hc. apply elem_of_list_In in Hc. by apply H3'. }
    assert (existsb (fun c => label_is p this k c.1 w) l = false) as ->.
    { apply not_true_iff_false. intros (c & Hc & E)%existsb_exists. apply elem_of_list_In in Hc. destruct (H3' c Hc) as (_ & _ & E'). congruence. }
    rewrite <- (app_nil_r l). rewrite from_skip; [done|]. apply Forall_forall. intros c Hc. destruct (H3' c Hc) as ([x ->] & _). done.
  Qed.
  Section Loop.
  Context (a b c : expr) (body : stmt).
  Fixpoint loop (n : nat) (w : world) {struct n} : result flow :=
    match n with
    | 0 => Busy w
    | S n =>
      '(v, w) <~ eval c w;
      match v with
      | VBool true =>
        '(f, w) <~ exec body w;
        match f with
        | Go => '(v, w) <~ eval b w; '(_, w) <~ store this a v w; loop n w
        | Brk => Fine Go w
        | Ret v => Fine (Ret v) w
        end
      | VBool false => Fine Go w
      | _ => Fault
      end
    end.
  End Loop.
  Lemma exec_for x i c a b body w : exec (SFor x i c a b body) w =
    rbind (eval i w) (fun v w1 => rbind (loop a b c body rounds (declare x v w1)) (fun f w' => Fine f (leave (w_vars w) w'))).
  Proof. reflexivity. Qed.
  Lemma exec_if c a b w x w1 : eval c w = Fine (VBool x) w1 ->
    exec (SIf c a b) w = if x then exec a w1 else match b with Some b => exec b w1 | None => Fine Go w1 end.
  Proof.
    intros H. change (exec (SIf c a b) w) with (rbind (eval c w) (fun v w =>
        match v with VBool true => exec a w | VBool false => match b with Some b => exec b w | None => Fine Go w end | _ => Fault end)).
    rewrite H. by destruct x.
  Qed.

  (** ** Pure expressions *)
  Definition gives (e : expr) (w : world) (v : cval) : Prop := eval e w = Fine v w.
  Lemma gives_name q w v : name_value p this q w = Some v -> gives (EName q) w v.
  Proof. intros H. unfold gives. cbn. by rewrite H. Qed.
  Lemma gives_str s w : cpp_safe s -> gives (EStr s) w (VStr s).
  Proof. intros H. unfold gives. cbn. unfold str_value. change [byte 34] with (lit """"). by rewrite str_body_safe. Qed.
  Lemma gives_not e w b : gives e w (VBool b) -> gives (EUn UNot e) w (VBool (negb b)).
  Proof. unfold gives. intros H. cbn. by rewrite H. Qed.
  Lemma gives_op o a b w u v x : gives a w u -> gives b w v -> bin o u v = Some x -> (forall s, u <> VOstream s) -> u <> VCin -> gives (EOps a [(o, b)]) w x.
  Proof. unfold gives. intros H1 H2 H3 H4 H5. rewrite eval_ops, H1. cbn [rbind]. assert (bins u [(o, b)] w = Fine x w) as E by (cbn; rewrite H2; cbn; by rewrite H3).
    destruct u; try done. by destruct (H4 q). Qed.
  Lemma parts_gives l vs w : Forall2 (fun e v => gives e w v) l vs -> parts (shl l) w = Fine vs w.
  Proof. induction 1 as [|e v l vs H _ IH]; [done|]. cbn. rewrite H. cbn. unfold shl in IH. by rewrite IH. Qed.
  Lemma evals_gives l vs w : Forall2 (fun e v => gives e w v) l vs -> evals l w = Fine vs w.
  Proof. induction 1 as [|e v l vs H _ IH]; [done|]. cbn. rewrite H. cbn. by rewrite IH. Qed.
  (** ** Statements in sequence *)
  Lemma execs_cons s r w w1 : exec s w = Fine Go w1 -> execs (s :: r) w = execs r w1.
  Proof. intros H. cbn. by rewrite H. Qed.
  Lemma execs_app l1 l2 w w1 : execs l1 w = Fine Go w1 -> execs (l1 ++ l2) w = execs l2 w1.
  Proof.
    revert w. induction l1 as [|s r IH]; intros w H; cbn in H |- *; [by injection H as ->|]. destruct (exec s w) as [[] w'| | |]; cbn in H |- *; try done. by apply IH.
  Qed.
  Lemma exec_expr e w v w1 : eval e w = Fine v w1 -> exec (SExpr e) w = Fine Go w1.
  Proof. intros H. cbn. by rewrite H. Qed.
  Lemma exec_assign a b w v w1 w2 : eval b w = Fine v w1 -> store this a v w1 = Fine tt w2 -> exec (SAssign a b) w = Fine Go w2.
  Proof. intros H1 H2. cbn. rewrite H1. cbn. by rewrite H2. Qed.
End Eqs.
Lemma run_call_S p conv rounds n this q args w ps body : find_fun p q = Some (ps, body) -> length ps = length args ->
  run_call p conv rounds (S n) this q args w =
  rbind (execs p conv rounds (run_call p conv rounds n) this body (set_vars (zip (map snd ps) args) w)) (fun f w' =>
    match f with Go => Fine VUnit (set_vars (w_vars w) w') | Ret v => Fine v (set_vars (w_vars w) w') | Brk => Fault end).
Proof. intros H1 H2. cbn [run_call]. rewrite H1. apply Nat.eqb_eq in H2. by rewrite H2. Qed.
