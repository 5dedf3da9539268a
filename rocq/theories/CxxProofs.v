(** * Reading back what is printed: the parser of SpecCxx.v inverts the obvious printer *)
From Verif Require Export SpecCxx.
From Verif Require Export StmProofs.

Definition pr_op (o : bop) : tok :=
  match o with OpAnd => TP PAnd | OpEq => TP PEq | OpNe => TP PNe | OpShl => TP PShl | OpShr => TP PShr end.
Definition pr_uop (o : uop) : tok := match o with UNeg => TP PMinus | UNot => TP PNot | UAddr => TP PAmp end.
Fixpoint pr_name_rest (q : list gostr) : list tok := match q with [] => [] | b :: q => TP PColon2 :: TId b :: pr_name_rest q end.
Definition pr_name (q : list gostr) : list tok := match q with [] => [] | a :: q => TId a :: pr_name_rest q end.
Fixpoint pr_more (c : punct) (l : list (list tok)) : list tok :=
  match l with [] => [TP c] | e :: l => TP PComma :: e ++ pr_more c l end.
Definition pr_args (c : punct) (l : list (list tok)) : list tok :=
  match l with [] => [TP c] | e :: l => e ++ pr_more c l end.
Fixpoint pr_expr (e : expr) : list tok :=
  match e with
  | EName q => pr_name q
  | EStr s => [TStr s]
  | ENum s => [TNum s]
  | EUn o e => pr_uop o :: pr_expr e
  | EPost e l => pr_expr e ++ concat (map pr_post l)
  | EOps e l => pr_expr e ++ concat (map (fun ob => match ob with (o, b) => pr_op o :: pr_expr b end) l)
  end
with pr_post (p : post) : list tok :=
  match p with
  | XCall args => TP PLParen :: pr_args PRParen (map pr_expr args)
  | XDot m => [TP PDot; TId m]
  | XInst q => TP PLt :: pr_name q ++ [TP PGt]
  end.
Notation pr_ops l := (concat (map (fun ob : bop * expr => match ob with (o, b) => pr_op o :: pr_expr b end) l)).
Notation pr_posts l := (concat (map pr_post l)).

Definition nonempty {A} (l : list A) : bool := match l with [] => false | _ => true end.
Definition is_prim (e : expr) : bool := match e with EName _ | EStr _ | ENum _ => true | _ => false end.
Fixpoint wf_e (k : nat) (e : expr) {struct e} : bool :=
  match e with
  | EName q => nonempty q
  | EStr _ | ENum _ => true
  | EUn _ e => wf_e 3 e
  | EPost e l => is_prim e && wf_e 3 e && nonempty l && forallb wf_post l
  | EOps e l =>
    match l with
    | [] => false
    | (o, _) :: _ => (k <=? op_level o) && wf_e (S (op_level o)) e &&
                     forallb (fun ob => match ob with (o', b) => (op_level o' =? op_level o) && wf_e (S (op_level o)) b end) l
    end
  end
with wf_post (p : post) : bool :=
  match p with XCall args => forallb (wf_e 0) args | XDot _ => true | XInst q => nonempty q end.

(** What may follow an expression of level [k]. *)
Definition stop (k : nat) (ts : list tok) : bool :=
  match ts with
  | [] => true
  | TP PLParen :: _ | TP PDot :: _ | TP PLt :: _ | TP PColon2 :: _ => false
  | t :: _ => match op_of t with Some o => op_level o <? k | None => true end
  end.
Lemma stop_mono k k' ts : k <= k' -> stop k ts = true -> stop k' ts = true.
Proof.
  intros Hk. unfold stop. destruct ts as [|t r]; [done|]. destruct t as [| | | |p|]; try done.
  destruct p; try done; cbn; destruct k as [|[|[|k]]], k' as [|[|[|k']]]; try done; lia.
Qed.
Lemma name_rest_ok q rest : (match rest with TP PColon2 :: _ => False | _ => True end) -> p_name_rest (pr_name_rest q ++ rest) = (q, rest).
Proof.
  intros H. induction q as [|b q IH]; cbn [pr_name_rest app p_name_rest].
  - destruct rest as [|t r]; [done|]. destruct t as [| | | |p|]; try done. by destruct p.
  - by rewrite IH.
Qed.
Lemma name_ok q rest : nonempty q = true -> (match rest with TP PColon2 :: _ => False | _ => True end) -> p_name (pr_name q ++ rest) = Some (q, rest).
Proof. intros Hq H. destruct q as [|a q]; [done|]. cbn. by rewrite name_rest_ok. Qed.
Lemma stop_colon k ts : stop k ts = true -> match ts with TP PColon2 :: _ => False | _ => True end.
Proof. destruct ts as [|t r]; [done|]. destruct t as [| | | |p|]; try done. by destruct p. Qed.
Lemma stop_posts n k ts : stop k ts = true -> p_posts (S n) ts = Some ([], ts).
Proof.
  destruct ts as [|t r]; [done|]. destruct t as [| | | |p|]; try done. destruct p; done.
Qed.
Lemma stop_ops n k ts : stop k ts = true -> p_ops (S n) k ts = Some ([], ts).
Proof.
  destruct ts as [|t r]; [done|]. destruct t as [| | | |p|]; try done.
  destruct p; try done; cbn; destruct k as [|[|[|k]]]; done.
Qed.
(** What an expression starts with. *)
Definition e_start (ts : list tok) : bool :=
  match ts with TId _ :: _ | TStr _ :: _ | TNum _ :: _ | TP (PMinus | PNot | PAmp) :: _ => true | _ => false end.
(** Induction along the head of an expression. *)
Lemma expr_spine (P : expr -> Prop) :
  (forall q, P (EName q)) -> (forall s, P (EStr s)) -> (forall s, P (ENum s)) -> (forall o e, P e -> P (EUn o e)) ->
  (forall e l, P e -> P (EPost e l)) -> (forall e l, P e -> P (EOps e l)) -> forall e, P e.
Proof. intros H1 H2 H3 H4 H5 H6. fix F 1. intros [q|s|s|o e|e l|e l]; [apply H1|apply H2|apply H3|apply H4, F|apply H5, F|apply H6, F]. Qed.
Lemma pr_start k e : wf_e k e = true -> forall rest, e_start (pr_expr e ++ rest) = true.
Proof.
  revert k. induction e as [q|s|s|o e IH|e l IH|e l IH] using expr_spine; intros k H rest; cbn in H |- *.
  - destruct q; done.
  - done.
  - done.
  - by destruct o.
  - rewrite <- app_assoc. apply (IH 3). apply andb_prop in H as [H _]. apply andb_prop in H as [H _]. by apply andb_prop in H as [_ H].
  - rewrite <- app_assoc. destruct l as [|[o b] l]; [done|]. apply andb_prop in H as [H _]. apply andb_prop in H as [_ H]. by apply (IH (S (op_level o))).
Qed.
Lemma pr_len k e : wf_e k e = true -> 1 <= length (pr_expr e).
Proof. intros H. pose proof (pr_start _ _ H []) as Hs. destruct (pr_expr e); [done|cbn; lia]. Qed.
Lemma start_expect c ts : c = PRParen \/ c = PRBrace \/ c = PSemi \/ c = PComma -> e_start ts = true -> expect c ts = None.
Proof.
  intros Hc H. destruct ts as [|t r]; [done|]. destruct t as [| | | |p|]; try done.
  destruct p; try done; by destruct Hc as [->|[->|[->| ->]]].
Qed.

(** One step of the parsers. *)
Lemma p_expr_S n k ts : p_expr (S n) k ts =
  if k <? 3 then '(e, r) ← p_expr n (S k) ts; '(l, r) ← p_ops n k r; Some (ops e l, r)
  else match ts with
       | [] => None
       | t :: r => match uop_of t with
                   | Some o => '(e, r) ← p_expr n 3 r; Some (EUn o e, r)
                   | None => '(e, r) ← p_prim ts; '(l, r) ← p_posts n r; Some (posts e l, r)
                   end
       end.
Proof. reflexivity. Qed.
Lemma p_ops_S n k t r : p_ops (S n) k (t :: r) =
  match op_of t with
  | Some o => if op_level o =? k then '(e, r) ← p_expr n (S k) r; '(l, r) ← p_ops n k r; Some ((o, e) :: l, r) else Some ([], t :: r)
  | None => Some ([], t :: r)
  end.
Proof. reflexivity. Qed.
Lemma p_posts_call n r : p_posts (S n) (TP PLParen :: r) = '(a, r) ← p_args PRParen n r; '(l, r) ← p_posts n r; Some (XCall a :: l, r).
Proof. reflexivity. Qed.
Lemma p_posts_dot n m r : p_posts (S n) (TP PDot :: TId m :: r) = '(l, r) ← p_posts n r; Some (XDot m :: l, r).
Proof. reflexivity. Qed.
Lemma p_posts_inst n r : p_posts (S n) (TP PLt :: r) = '(q, r) ← p_name r; r ← expect PGt r; '(l, r) ← p_posts n r; Some (XInst q :: l, r).
Proof. reflexivity. Qed.
Lemma p_args_S c n ts : p_args c (S n) ts =
  match expect c ts with
  | Some r => Some ([], r)
  | None => '(e, r) ← p_expr n 0 ts; '(l, r) ← p_more c n r; Some (e :: l, r)
  end.
Proof. reflexivity. Qed.
Lemma p_more_S c n ts : p_more c (S n) ts =
  match expect c ts with
  | Some r => Some ([], r)
  | None => r ← expect PComma ts; '(e, r) ← p_expr n 0 r; '(l, r) ← p_more c n r; Some (e :: l, r)
  end.
Proof. reflexivity. Qed.

Section Level.
Context (N : nat).
Context (IH : forall e k n rest, length (pr_expr e) < N -> k <= 3 -> wf_e k e = true -> stop k rest = true -> 6 * length (pr_expr e) + 4 - k <= n ->
                p_expr n k (pr_expr e ++ rest) = Some (e, rest)).

Lemma ops_ok k l n rest : k < 3 -> length (pr_ops l) < N -> forallb (fun ob => match ob with (o', b) => (op_level o' =? k) && wf_e (S k) b end) l = true ->
  stop k rest = true -> 6 * length (pr_ops l) + 1 <= n -> p_ops n k (pr_ops l ++ rest) = Some (l, rest).
Proof.
  intros Hk. revert n. induction l as [|[o b] l IHl]; intros n Hlen Hwf Hs Hn; cbn [map concat app] in *.
  - destruct n as [|n]; [lia|]. by apply stop_ops.
  - cbn [forallb] in Hwf. apply andb_prop in Hwf as [Hb Hl]. apply andb_prop in Hb as [Ho Hb]. apply Nat.eqb_eq in Ho. cbn [app length] in Hlen, Hn. rewrite app_length in Hlen, Hn.
    pose proof (pr_len _ _ Hb). destruct n as [|n]; [lia|].
    rewrite <- ?app_comm_cons, <- app_assoc. rewrite p_ops_S. replace (op_of (pr_op o)) with (Some o) by (by destruct o). rewrite Ho, Nat.eqb_refl.
    rewrite IH; [|lia|lia|done| |lia].
    + cbn. rewrite IHl; [done|lia|done|done|lia].
    + destruct l as [|[o' b'] l].
      * cbn. by apply (stop_mono k); [lia|].
      * cbn in Hl. apply andb_prop in Hl as [Hl _]. apply andb_prop in Hl as [Ho' _]. apply Nat.eqb_eq in Ho'. clear -Ho'. subst k. by destruct o'.
Qed.
Lemma more_ok c l n rest : c = PRParen \/ c = PRBrace -> length (pr_more c (map pr_expr l)) < N + 2 -> forallb (wf_e 0) l = true ->
  6 * length (pr_more c (map pr_expr l)) <= n -> p_more c n (pr_more c (map pr_expr l) ++ rest) = Some (l, rest).
Proof.
  intros Hc. revert n. induction l as [|e l IHl]; intros n Hlen Hwf Hn; cbn [map pr_more app] in *.
  - destruct n as [|n]; [cbn in Hn; lia|]. rewrite p_more_S. by destruct Hc as [-> | ->].
  - cbn [forallb] in Hwf. apply andb_prop in Hwf as [He Hl]. cbn [length] in Hlen, Hn. rewrite app_length in Hlen, Hn. pose proof (pr_len _ _ He).
    assert (1 <= length (pr_more c (map pr_expr l))) by (destruct l; cbn; lia).
    destruct n as [|n]; [lia|]. rewrite p_more_S. replace (expect c _) with (@None (list tok)) by (by destruct Hc as [-> | ->]). cbn [expect is_p punct_eqb mbind option_bind].
    rewrite <- app_assoc. rewrite IH; [|lia|lia|done| |lia].
    + cbn. rewrite IHl; [done|lia|done|lia].
    + destruct l; [by destruct Hc as [-> | ->]|done].
Qed.
Lemma args_ok c l n rest : c = PRParen \/ c = PRBrace -> length (pr_args c (map pr_expr l)) < N + 1 -> forallb (wf_e 0) l = true ->
  6 * length (pr_args c (map pr_expr l)) + 2 <= n -> p_args c n (pr_args c (map pr_expr l) ++ rest) = Some (l, rest).
Proof.
  intros Hc Hlen Hwf Hn. destruct l as [|e l]; cbn [map pr_args app] in *.
  - destruct n as [|n]; [cbn in Hn; lia|]. rewrite p_args_S. by destruct Hc as [-> | ->].
  - cbn [forallb] in Hwf. apply andb_prop in Hwf as [He Hl]. rewrite app_length in Hlen, Hn. pose proof (pr_len _ _ He).
    assert (1 <= length (pr_more c (map pr_expr l))) by (destruct l; cbn; lia).
    destruct n as [|n]; [lia|]. rewrite p_args_S. rewrite start_expect; [|tauto|rewrite <- app_assoc; by apply (pr_start 0)].
    rewrite <- app_assoc. rewrite IH; [|lia|lia|done| |lia].
    + cbn. rewrite more_ok; [done|done|lia|done|lia].
    + destruct l; [by destruct Hc as [-> | ->]|done].
Qed.
Lemma posts_ok k l n rest : length (pr_posts l) < N -> forallb wf_post l = true -> stop k rest = true -> 6 * length (pr_posts l) + 1 <= n ->
  p_posts n (pr_posts l ++ rest) = Some (l, rest).
Proof.
  revert n. induction l as [|p l IHl]; intros n Hlen Hwf Hs Hn; cbn [map concat app] in *.
  - destruct n as [|n]; [lia|]. by apply (stop_posts n k).
  - cbn [forallb] in Hwf. apply andb_prop in Hwf as [Hp Hl]. rewrite app_length in Hlen, Hn. rewrite <- app_assoc.
    destruct n as [|n]; [lia|]. destruct p as [args|m|q]; cbn [pr_post app length] in *.
    + rewrite p_posts_call. assert (1 <= length (pr_args PRParen (map pr_expr args))) by (destruct args as [|a ar]; cbn; [lia|rewrite app_length; destruct ar; cbn; lia]).
      rewrite args_ok; [|tauto|lia|done|lia]. cbn. rewrite IHl; [done|lia|done|done|lia].
    + rewrite p_posts_dot. rewrite IHl; [done|lia|done|done|lia].
    + rewrite p_posts_inst. rewrite app_length in Hlen, Hn. cbn in Hlen, Hn. rewrite <- app_assoc. cbn in Hp. rewrite name_ok; [|done|done]. cbn. rewrite IHl; [done|lia|done|done|lia].
Qed.
End Level.

Lemma expr_ok N : forall e k n rest, length (pr_expr e) < N -> k <= 3 -> wf_e k e = true -> stop k rest = true -> 6 * length (pr_expr e) + 4 - k <= n ->
  p_expr n k (pr_expr e ++ rest) = Some (e, rest).
Proof.
  induction N as [|N IHN]; [lia|]. intros e k n rest Hlen Hk Hwf Hs Hn.
  assert (Hd : exists d, k + d = 3) by (exists (3 - k); lia). destruct Hd as [d Hd]. revert k n rest Hk Hwf Hs Hn Hd. induction d as [|d IHd]; intros k n rest Hk Hwf Hs Hn Hd.
  - assert (k = 3) as -> by lia. destruct n as [|n]; [pose proof (pr_len _ _ Hwf); lia|]. rewrite p_expr_S; cbn [Nat.ltb Nat.leb].
    destruct e as [q|s|s|o e|e l|e l].
    + cbn in Hwf. destruct q as [|a q]; [done|]. cbn [pr_expr pr_name app uop_of].
      change (p_prim (TId a :: pr_name_rest q ++ rest)) with ('(q, r) ← p_name (pr_name (a :: q) ++ rest); Some (EName q, r)). rewrite name_ok by (done || by eapply stop_colon). cbn.
      destruct n as [|n]; [cbn in Hn; lia|]. by rewrite (stop_posts n 3).
    + cbn. destruct n as [|n]; [cbn in Hn; lia|]. by rewrite (stop_posts n 3).
    + cbn. destruct n as [|n]; [cbn in Hn; lia|]. by rewrite (stop_posts n 3).
    + cbn [pr_expr app]. replace (uop_of (pr_uop o)) with (Some o) by (by destruct o). cbn in Hwf, Hlen, Hn. rewrite IHN; [done|lia|lia|done|done|lia].
    + cbn [pr_expr]. cbn [pr_expr] in Hlen, Hn. rewrite app_length in Hlen, Hn. cbn [wf_e] in Hwf. apply andb_prop in Hwf as [Hwf Hp]. apply andb_prop in Hwf as [Hwf Hne]. apply andb_prop in Hwf as [Hpr Hwf].
      pose proof (pr_len _ _ Hwf). rewrite <- app_assoc.
      assert (Hprim : forall r, match r with TP PColon2 :: _ => False | _ => True end -> p_prim (pr_expr e ++ r) = Some (e, r)).
      { intros r Hr. destruct e as [q|s|s| | |]; try done. cbn in Hwf. destruct q as [|a q]; [done|]. cbn [pr_expr pr_name app].
        change (p_prim (TId a :: pr_name_rest q ++ r)) with ('(q, r) ← p_name (pr_name (a :: q) ++ r); Some (EName q, r)). by rewrite name_ok. }
      pose proof (pr_start _ _ Hwf (pr_posts l ++ rest)) as Hst.
      destruct (pr_expr e ++ pr_posts l ++ rest) as [|t r] eqn:E; [done|].
      assert (Hu : uop_of t = None).
      { destruct e as [q|s|s| | |]; try done; cbn in E; [destruct q; [done|]; cbn in E|..]; by injection E as <- _. }
      rewrite Hu, <- E. rewrite Hprim.
      * cbn [mbind option_bind]. rewrite (posts_ok N) with (k := 3); [|done|lia|done|done|lia]. cbn. by destruct l.
      * destruct l as [|p l]; [done|]. by destruct p.
    + exfalso. cbn in Hwf. destruct l as [|[o b] l]; [done|]. apply andb_prop in Hwf as [Hwf _]. apply andb_prop in Hwf as [Hwf _]. by destruct o.
  - destruct n as [|n]; [pose proof (pr_len _ _ Hwf); lia|]. rewrite p_expr_S. replace (k <? 3) with true by (symmetry; apply Nat.ltb_lt; lia).
    assert (Hhigh : wf_e (S k) e = true -> ('(e0, r) ← p_expr n (S k) (pr_expr e ++ rest); '(l, r0) ← p_ops n k r; Some (ops e0 l, r0)) = Some (e, rest)).
    { intros Hw. rewrite IHd; [|lia|done|by apply (stop_mono k); [lia|]|pose proof (pr_len _ _ Hwf); lia|lia]. cbn [mbind option_bind].
      destruct n as [|n]; [pose proof (pr_len _ _ Hwf); lia|]. by rewrite stop_ops. }
    destruct e as [q|s|s|o e|e l|e l]; try (by apply Hhigh).
    cbn [wf_e] in Hwf, Hhigh. destruct l as [|[o b] l]; [done|]. apply andb_prop in Hwf as [Hwf Hl]. apply andb_prop in Hwf as [Ho He]. apply Nat.leb_le in Ho.
    destruct (decide (op_level o = k)) as [Hok|Hok]; [|apply Hhigh; rewrite He, Hl, !andb_true_r; apply Nat.leb_le; lia].
    rewrite Hok in He, Hl. cbn [pr_expr] in *. set (lo := (o, b) :: l) in *. rewrite app_length in Hlen, Hn. pose proof (pr_len _ _ He).
    assert (1 <= length (pr_ops lo)) by (subst lo; cbn; lia). rewrite <- app_assoc. rewrite IHN; [|lia|lia|done| |lia].
    + cbn [mbind option_bind]. rewrite (ops_ok N); [|done|lia|lia|done|done|lia]. done.
    + subst lo. cbn. rewrite <- Hok. destruct o; reflexivity.
Qed.
Lemma e_ok e rest : wf_e 0 e = true -> stop 0 rest = true -> p_e (pr_expr e ++ rest) = Some (e, rest).
Proof.
  intros Hwf Hs. unfold p_e. apply (expr_ok (S (length (pr_expr e)))); [lia|lia|done|done|]. unfold steps. rewrite app_length. lia.
Qed.
Lemma e_args_ok c l rest : c = PRParen \/ c = PRBrace -> forallb (wf_e 0) l = true ->
  p_args c (steps (pr_args c (map pr_expr l) ++ rest)) (pr_args c (map pr_expr l) ++ rest) = Some (l, rest).
Proof.
  intros Hc Hwf. apply (args_ok (length (pr_args c (map pr_expr l)))); [|done|lia|done|unfold steps; rewrite app_length; lia].
  intros e k n r _. apply (expr_ok (S (length (pr_expr e)))). lia.
Qed.

(** ** Types and parameters *)
Definition pr_base (b : cbase) : list tok :=
  match b with
  | BVoid => [TKw KVoid] | BInt => [TKw KInt] | BUnsigned => [TKw KUnsigned; TKw KInt] | BDouble => [TKw KDouble] | BChar => [TKw KChar] | BAuto => [TKw KAuto]
  | BName q => pr_name q
  end.
Definition pr_type (t : ctype) : list tok := (if ct_const t then [TKw KConst] else []) ++ pr_base (ct_base t) ++ map TP (ct_suffix t).
Definition wf_base (b : cbase) : bool := match b with BName q => nonempty q | _ => true end.
Definition wf_type (t : ctype) : bool := wf_base (ct_base t) && forallb (fun p => match p with PStar | PAmp => true | _ => false end) (ct_suffix t).
Lemma suffix_ok l x rest : forallb (fun p => match p with PStar | PAmp => true | _ => false end) l = true -> p_suffix (map TP l ++ TId x :: rest) = (l, TId x :: rest).
Proof. induction l as [|p l IH]; [done|]. cbn. intros [Hp Hl]%andb_prop. rewrite IH by done. by destruct p. Qed.
Lemma base_ok b ts : wf_base b = true -> (match ts with TP PColon2 :: _ => False | _ => True end) -> p_base (pr_base b ++ ts) = Some (b, ts).
Proof.
  intros Hb Ht. destruct b as [| | | | | |q]; try done. cbn in Hb. destruct q as [|a q]; [done|].
  change (p_base (pr_base (BName (a :: q)) ++ ts)) with ('(q, r) ← p_name (pr_name (a :: q) ++ ts); Some (BName q, r)). by rewrite name_ok.
Qed.
Lemma type_ok t x rest : wf_type t = true -> p_type (pr_type t ++ TId x :: rest) = Some (t, TId x :: rest).
Proof.
  unfold wf_type. intros [Hb Hs]%andb_prop. unfold pr_type, p_type. destruct t as [c b l]. cbn [ct_const ct_base ct_suffix] in *.
  assert (Hc : forall ts, match b with BName (_ :: _) | BVoid | BInt | BUnsigned | BDouble | BChar | BAuto => True | _ => False end ->
    match ((if c then [TKw KConst] else []) ++ pr_base b) ++ ts with TKw KConst :: r => (true, r) | _ => (false, ((if c then [TKw KConst] else []) ++ pr_base b) ++ ts) end = (c, pr_base b ++ ts)).
  { intros ts H. destruct c, b as [| | | | | |[|a q]]; done. }
  rewrite <- !app_assoc. specialize (Hc (map TP l ++ TId x :: rest)). rewrite <- app_assoc in Hc. rewrite Hc by (destruct b as [| | | | | |[|a q]]; done).
  rewrite base_ok; [|done|destruct l as [|p l]; [done|]; cbn in Hs; by destruct p]. cbn [mbind option_bind]. by rewrite suffix_ok.
Qed.
Definition pr_param (p : param) : list tok := pr_type p.1 ++ [TId p.2].
Definition wf_param (p : param) : bool := wf_type p.1.
Lemma param_ok p rest : wf_param p = true -> p_param (pr_param p ++ rest) = Some (p, rest).
Proof. intros H. destruct p as [t x]. unfold p_param, pr_param. cbn. rewrite <- app_assoc. cbn. by rewrite type_ok. Qed.
(** What a type starts with. *)
Definition t_start (ts : list tok) : bool :=
  match ts with TId _ :: _ | TKw (KVoid | KInt | KUnsigned | KDouble | KChar | KAuto | KConst) :: _ => true | _ => false end.
Lemma type_t_start t rest : wf_type t = true -> t_start (pr_type t ++ rest) = true.
Proof. unfold wf_type, pr_type. destruct t as [c b l]. cbn. intros [Hb _]%andb_prop. destruct c, b as [| | | | | |[|a q]]; done. Qed.
Lemma t_start_expect c ts : t_start ts = true -> expect c ts = None.
Proof. destruct ts as [|t r]; [done|]. by destruct t. Qed.
Lemma pr_more_len c l : 1 <= length (pr_more c l).
Proof. destruct l; cbn; lia. Qed.
Lemma params_more_ok l n rest : forallb wf_param l = true -> length l < n -> p_params_more n (pr_more PRParen (map pr_param l) ++ rest) = Some (l, rest).
Proof.
  revert n. induction l as [|p l IH]; intros n Hwf Hn; (destruct n as [|n]; [lia|]); [done|].
  cbn [forallb] in Hwf. apply andb_prop in Hwf as [Hp Hl]. cbn [map pr_more app p_params_more expect is_p punct_eqb mbind option_bind]. rewrite <- app_assoc, param_ok by done. cbn [mbind option_bind].
  rewrite IH; [done|done|cbn in Hn; lia].
Qed.
Lemma param_len p : wf_param p = true -> 1 <= length (pr_param p).
Proof. intros H. unfold pr_param. rewrite app_length. cbn. lia. Qed.
Lemma params_len l : length l <= length (pr_more PRParen (map pr_param l)).
Proof. induction l as [|p l IH]; cbn; [lia|]. rewrite app_length. lia. Qed.
Lemma params_ok l rest : forallb wf_param l = true -> p_params (pr_args PRParen (map pr_param l) ++ rest) = Some (l, rest).
Proof.
  intros Hwf. destruct l as [|p l]; [done|]. cbn [forallb] in Hwf. apply andb_prop in Hwf as [Hp Hl]. cbn [map pr_args]. unfold p_params. rewrite <- app_assoc.
  rewrite t_start_expect.
  2:{ unfold pr_param. rewrite <- app_assoc. by apply type_t_start. }
  rewrite param_ok by done. cbn [mbind option_bind]. rewrite params_more_ok; [done|done|]. rewrite !app_length. pose proof (params_len l). pose proof (param_len _ Hp). lia.
Qed.

(** ** Statements *)
Definition pr_label (c : option expr) : list tok := match c with Some e => TKw KCase :: pr_expr e ++ [TP PColon] | None => [TKw KDefault; TP PColon] end.
Fixpoint pr_stmt (s : stmt) : list tok :=
  match s with
  | SExpr e => pr_expr e ++ [TP PSemi]
  | SAssign a b => pr_expr a ++ TP PAssign :: pr_expr b ++ [TP PSemi]
  | SReturn None => [TKw KReturn; TP PSemi]
  | SReturn (Some e) => TKw KReturn :: pr_expr e ++ [TP PSemi]
  | SBreak => [TKw KBreak; TP PSemi]
  | SBlock b => TP PLBrace :: concat (map pr_stmt b) ++ [TP PRBrace]
  | SIf c a b => TKw KIf :: TP PLParen :: pr_expr c ++ TP PRParen :: pr_stmt a ++ match b with Some b => TKw KElse :: pr_stmt b | None => [] end
  | SSwitch e cs => TKw KSwitch :: TP PLParen :: pr_expr e ++ TP PRParen :: TP PLBrace ::
                    concat (map (fun cb => match cb with (c, b) => pr_label c ++ concat (map pr_stmt b) end) cs) ++ [TP PRBrace]
  | SFor x i c a b body => TKw KFor :: TP PLParen :: TKw KAuto :: TId x :: TP PAssign :: pr_expr i ++ TP PSemi :: pr_expr c ++ TP PSemi :: pr_expr a ++
                           TP PAssign :: pr_expr b ++ TP PRParen :: pr_stmt body
  | SDecl t x None => pr_type t ++ [TId x; TP PSemi]
  | SDecl t x (Some e) => pr_type t ++ TId x :: TP PAssign :: pr_expr e ++ [TP PSemi]
  | SInit t x args => pr_type t ++ TId x :: TP PLBrace :: pr_args PRBrace (map pr_expr args) ++ [TP PSemi]
  end.
Notation pr_stmts b := (concat (map pr_stmt b)).
Notation pr_cases cs := (concat (map (fun cb : option expr * list stmt => match cb with (c, b) => pr_label c ++ concat (map pr_stmt b) end) cs)).
Fixpoint open_if (s : stmt) : bool :=
  match s with SIf _ _ None => true | SIf _ _ (Some b) => open_if b | SFor _ _ _ _ _ b => open_if b | _ => false end.
(** The types of local variables. *)
Definition wf_local (t : ctype) : bool :=
  wf_type t && match ct_base t, ct_const t, ct_suffix t with BName _, false, _ :: _ => false | _, _, _ => true end.
Fixpoint wf_s (s : stmt) : bool :=
  match s with
  | SExpr e => wf_e 0 e
  | SAssign a b => wf_e 0 a && wf_e 0 b
  | SReturn None | SBreak => true
  | SReturn (Some e) => wf_e 0 e
  | SBlock b => forallb wf_s b
  | SIf c a b => wf_e 0 c && wf_s a && match b with Some b => negb (open_if a) && wf_s b | None => true end
  | SSwitch e cs => wf_e 0 e && forallb (fun cb => match cb with (c, b) => match c with Some e => wf_e 0 e | None => true end && forallb wf_s b end) cs
  | SFor x i c a b body => wf_e 0 i && wf_e 0 c && wf_e 0 a && wf_e 0 b && wf_s body
  | SDecl t x e => wf_local t && match e with Some e => wf_e 0 e | None => true end
  | SInit t x args => wf_local t && forallb (wf_e 0) args
  end.
Definition not_else (ts : list tok) : bool := match ts with TKw KElse :: _ => false | _ => true end.
(** What a statement starts with. *)
Definition s_start (ts : list tok) : bool :=
  match ts with [] | TP PRBrace :: _ | TKw (KElse | KCase | KDefault) :: _ => false | _ => true end.
Lemma e_s_start ts : e_start ts = true -> s_start ts = true.
Proof. destruct ts as [|t r]; [done|]. destruct t as [| | | |p|]; try done. by destruct p. Qed.
Lemma t_s_start ts : t_start ts = true -> s_start ts = true.
Proof. destruct ts as [|t r]; [done|]. destruct t as [|k| | | |]; try done. by destruct k. Qed.
Lemma pr_s_start s rest : wf_s s = true -> s_start (pr_stmt s ++ rest) = true.
Proof.
  destruct s as [e|a b|[e|]| |b|c a b|e cs|x i c a b body|t x [e|]|t x args]; intros H; cbn [pr_stmt wf_s] in *; try done; rewrite <- ?app_assoc.
  - by apply e_s_start, (pr_start 0).
  - apply andb_prop in H as [H _]. by apply e_s_start, (pr_start 0).
  - apply andb_prop in H as [H _]. apply andb_prop in H as [H _]. by apply t_s_start, type_t_start.
  - apply andb_prop in H as [H _]. apply andb_prop in H as [H _]. by apply t_s_start, type_t_start.
  - apply andb_prop in H as [H _]. apply andb_prop in H as [H _]. by apply t_s_start, type_t_start.
Qed.
Lemma pr_s_len s : wf_s s = true -> 1 <= length (pr_stmt s).
Proof. intros H. pose proof (pr_s_start _ [] H) as Hs. destruct (pr_stmt s); [done|cbn; lia]. Qed.
Lemma s_start_expect ts : s_start ts = true -> expect PRBrace ts = None.
Proof. destruct ts as [|t r]; [done|]. destruct t as [| | | |p|]; try done. by destruct p. Qed.
Lemma s_start_else ts : s_start ts = true -> not_else ts = true.
Proof. destruct ts as [|t r]; [done|]. destruct t as [|k| | | |]; try done. by destruct k. Qed.

Lemma p_stmts_S n ts : p_stmts (S n) ts =
  match expect PRBrace ts with
  | Some r => Some ([], r)
  | None => '(s, r) ← p_stmt n ts; '(ss, r) ← p_stmts n r; Some (s :: ss, r)
  end.
Proof. reflexivity. Qed.
Lemma p_case_body_S n ts : s_start ts = true -> p_case_body (S n) ts = '(s, r) ← p_stmt n ts; '(ss, r) ← p_case_body n r; Some (s :: ss, r).
Proof.
  destruct ts as [|t r]; [done|]. destruct t as [|k| | |p|]; try done; [destruct k; try done|destruct p; try done].
Qed.
Definition label_start (ts : list tok) : bool := match ts with TP PRBrace :: _ | TKw (KCase | KDefault) :: _ => true | _ => false end.
Lemma p_case_body_end n ts : label_start ts = true -> p_case_body (S n) ts = Some ([], ts).
Proof.
  destruct ts as [|t r]; [done|]. destruct t as [|k| | |p|]; try done; [destruct k; try done|destruct p; try done].
Qed.
Lemma p_cases_case n r : p_cases (S n) (TKw KCase :: r) = '(e, r) ← p_e r; r ← expect PColon r; '(b, r) ← p_case_body n r; '(cs, r) ← p_cases n r; Some ((Some e, b) :: cs, r).
Proof. reflexivity. Qed.
Lemma p_cases_default n r : p_cases (S n) (TKw KDefault :: r) = r ← expect PColon r; '(b, r) ← p_case_body n r; '(cs, r) ← p_cases n r; Some ((None, b) :: cs, r).
Proof. reflexivity. Qed.
Lemma label_not_else ts : label_start ts = true -> not_else ts = true.
Proof. destruct ts as [|t r]; [done|]. destruct t as [|k| | | |]; try done. by destruct k. Qed.

Section Stmts.
Context (N : nat).
Context (IH : forall s n rest, length (pr_stmt s) < N -> wf_s s = true -> (open_if s = true -> not_else rest = true) -> 2 * length (pr_stmt s) + 1 <= n ->
                p_stmt n (pr_stmt s ++ rest) = Some (s, rest)).
Lemma stmts_ok b n rest : length (pr_stmts b) < N -> forallb wf_s b = true -> 2 * length (pr_stmts b) + 2 <= n ->
  p_stmts n (pr_stmts b ++ TP PRBrace :: rest) = Some (b, rest).
Proof.
  revert n. induction b as [|s b IHb]; intros n Hlen Hwf Hn; (destruct n as [|n]; [lia|]); [done|]. rewrite p_stmts_S. cbn [map concat] in *.
  cbn [forallb] in Hwf. apply andb_prop in Hwf as [Hs Hb]. rewrite app_length in Hlen, Hn. pose proof (pr_s_len _ Hs). rewrite <- app_assoc.
  rewrite s_start_expect by (by apply pr_s_start). rewrite IH; [|lia|done| |lia].
  - cbn [mbind option_bind]. rewrite IHb; [done|lia|done|lia].
  - intros _. destruct b as [|s' b]; [done|]. cbn [map concat]. cbn [forallb] in Hb. apply andb_prop in Hb as [Hs' _]. rewrite <- app_assoc. by apply s_start_else, pr_s_start.
Qed.
Lemma body_ok b n rest : length (pr_stmts b) < N -> forallb wf_s b = true -> label_start rest = true -> 2 * length (pr_stmts b) + 2 <= n ->
  p_case_body n (pr_stmts b ++ rest) = Some (b, rest).
Proof.
  intros Hlen Hwf Hr. revert n Hlen Hwf. induction b as [|s b IHb]; intros n Hlen Hwf Hn; (destruct n as [|n]; [lia|]); cbn [map concat app] in *.
  - by apply p_case_body_end.
  - cbn [forallb] in Hwf. apply andb_prop in Hwf as [Hs Hb]. rewrite app_length in Hlen, Hn. pose proof (pr_s_len _ Hs). rewrite <- app_assoc.
    rewrite p_case_body_S by (by apply pr_s_start). rewrite IH; [|lia|done| |lia].
    + cbn [mbind option_bind]. rewrite IHb; [done|lia|done|lia].
    + intros _. destruct b as [|s' b]; [by apply label_not_else|]. cbn [map concat]. cbn [forallb] in Hb. apply andb_prop in Hb as [Hs' _]. rewrite <- app_assoc. by apply s_start_else, pr_s_start.
Qed.
Lemma cases_ok cs n rest : length (pr_cases cs) < N ->
  forallb (fun cb : option expr * list stmt => match cb with (c, b) => match c with Some e => wf_e 0 e | None => true end && forallb wf_s b end) cs = true ->
  2 * length (pr_cases cs) + 2 <= n -> p_cases n (pr_cases cs ++ TP PRBrace :: rest) = Some (cs, rest).
Proof.
  revert n. induction cs as [|[c b] cs IHc]; intros n Hlen Hwf Hn; (destruct n as [|n]; [lia|]); [done|]. cbn [map concat] in *.
  cbn [forallb] in Hwf. apply andb_prop in Hwf as [Hb Hcs]. apply andb_prop in Hb as [Hc Hb]. rewrite !app_length in Hlen, Hn. rewrite <- !app_assoc.
  assert (Hl : label_start (pr_cases cs ++ TP PRBrace :: rest) = true) by (destruct cs as [|[[c'|] b'] cs]; done).
  destruct c as [e|]; cbn [pr_label] in *.
  - cbn [length] in Hlen, Hn. rewrite app_length in Hlen, Hn. cbn [length] in Hlen, Hn. rewrite <- app_comm_cons, p_cases_case, <- app_assoc. rewrite e_ok by done. cbn [mbind option_bind app expect is_p punct_eqb].
    rewrite body_ok; [|lia|done|done|lia]. cbn [mbind option_bind]. rewrite IHc; [done|lia|done|lia].
  - cbn [length] in Hlen, Hn. cbn [app]. rewrite p_cases_default. cbn [mbind option_bind expect is_p punct_eqb].
    rewrite body_ok; [|lia|done|done|lia]. cbn [mbind option_bind]. rewrite IHc; [done|lia|done|lia].
Qed.
End Stmts.

Definition simple_start (ts : list tok) : bool :=
  match ts with TP PLBrace :: _ | TKw (KIf | KSwitch | KFor | KReturn | KBreak) :: _ => false | _ => true end.
Lemma p_stmt_simple n ts : simple_start ts = true -> p_stmt (S n) ts = p_simple ts.
Proof.
  destruct ts as [|t r]; [done|]. destruct t as [|k| | |p|]; try done; [destruct k; try done|destruct p; try done].
Qed.
Lemma e_simple ts : e_start ts = true -> simple_start ts = true.
Proof. destruct ts as [|t r]; [done|]. destruct t as [| | | |p|]; try done. by destruct p. Qed.
Lemma t_simple ts : t_start ts = true -> simple_start ts = true.
Proof. destruct ts as [|t r]; [done|]. destruct t as [|k| | | |]; try done. by destruct k. Qed.
(** An expression followed by an operator, a bracket or a semicolon is not taken for a declaration. *)
Definition tp_start (ts : list tok) : bool := match ts with TP PColon2 :: _ => false | TP _ :: _ => true | _ => false end.
Lemma e_not_type k e rest : wf_e k e = true -> tp_start rest = true -> type_start (pr_expr e ++ rest) = false.
Proof.
  revert k rest. induction e as [q|s|s|o e IH|e l IH|e l IH] using expr_spine; intros k rest H Hr; cbn in H |- *.
  - destruct q as [|a q]; [done|]. unfold type_start. cbn [pr_name app]. change (TId a :: pr_name_rest q ++ rest) with (pr_name (a :: q) ++ rest). rewrite name_ok; [|done|].
    + destruct rest as [|t r]; [done|]. by destruct t.
    + destruct rest as [|t r]; [done|]. destruct t as [| | | |p|]; try done. by destruct p.
  - done.
  - done.
  - by destruct o.
  - rewrite <- app_assoc. apply andb_prop in H as [H _]. apply andb_prop in H as [H Hl]. apply andb_prop in H as [_ H]. apply (IH 3); [done|]. destruct l as [|p l]; [done|]. by destruct p.
  - rewrite <- app_assoc. destruct l as [|[o b] l]; [done|]. apply andb_prop in H as [H _]. apply andb_prop in H as [_ H]. apply (IH (S (op_level o))); [done|]. by destruct o.
Qed.
Lemma local_type_start t x rest : wf_local t = true -> type_start (pr_type t ++ TId x :: rest) = true.
Proof.
  unfold wf_local, wf_type, pr_type. destruct t as [c b l]. cbn. intros [[Hb Hs]%andb_prop Hn]%andb_prop. destruct c; [done|]. destruct b as [| | | | | |q]; try done. destruct l; [|done].
  cbn in *. destruct q as [|a q]; [done|]. unfold type_start. cbn [pr_name app]. rewrite app_nil_r. change (TId a :: pr_name_rest q ++ TId x :: rest) with (pr_name (a :: q) ++ TId x :: rest). by rewrite name_ok.
Qed.
Lemma local_wf t : wf_local t = true -> wf_type t = true.
Proof. unfold wf_local. by intros [H _]%andb_prop. Qed.
Lemma p_stmt_block n r : p_stmt (S n) (TP PLBrace :: r) = '(b, r) ← p_stmts n r; Some (SBlock b, r).
Proof. reflexivity. Qed.
Lemma p_stmt_if n r : p_stmt (S n) (TKw KIf :: r) =
  r ← expect PLParen r; '(c, r) ← p_e r; r ← expect PRParen r; '(a, r) ← p_stmt n r;
  match r with
  | TKw KElse :: r => '(b, r) ← p_stmt n r; Some (SIf c a (Some b), r)
  | _ => Some (SIf c a None, r)
  end.
Proof. reflexivity. Qed.
Lemma p_stmt_switch n r : p_stmt (S n) (TKw KSwitch :: r) =
  r ← expect PLParen r; '(e, r) ← p_e r; r ← expect PRParen r; r ← expect PLBrace r; '(cs, r) ← p_cases n r; Some (SSwitch e cs, r).
Proof. reflexivity. Qed.
Lemma p_stmt_for n x r : p_stmt (S n) (TKw KFor :: TP PLParen :: TKw KAuto :: TId x :: r) =
  r ← expect PAssign r; '(i, r) ← p_e r; r ← expect PSemi r; '(c, r) ← p_e r; r ← expect PSemi r; '(a, r) ← p_e r; r ← expect PAssign r; '(b, r) ← p_e r;
  r ← expect PRParen r; '(body, r) ← p_stmt n r; Some (SFor x i c a b body, r).
Proof. reflexivity. Qed.
Lemma p_stmt_return n r : p_stmt (S n) (TKw KReturn :: r) =
  match expect PSemi r with
  | Some r => Some (SReturn None, r)
  | None => '(e, r) ← p_e r; r ← expect PSemi r; Some (SReturn (Some e), r)
  end.
Proof. reflexivity. Qed.
Lemma not_else_if {A} (ts : list tok) (f : list tok -> A) (z : A) : not_else ts = true -> match ts with TKw KElse :: r => f r | _ => z end = z.
Proof. destruct ts as [|t r]; [done|]. destruct t as [|k| | | |]; try done. by destruct k. Qed.

Ltac after_e := rewrite e_ok by done; cbn [mbind option_bind app expect is_p punct_eqb].
Lemma stmt_ok N : forall s n rest, length (pr_stmt s) < N -> wf_s s = true -> (open_if s = true -> not_else rest = true) -> 2 * length (pr_stmt s) + 1 <= n ->
  p_stmt n (pr_stmt s ++ rest) = Some (s, rest).
Proof.
  induction N as [|N IH]; [lia|]. intros s n rest Hlen Hwf Ho Hn. destruct n as [|n]; [lia|].
  destruct s as [e|a b|[e|]| |b|c a b|e cs|x i c a b body|t x [e|]|t x args]; cbn [pr_stmt wf_s open_if] in *.
  - rewrite <- app_assoc, p_stmt_simple by (by apply e_simple, (pr_start 0)). unfold p_simple. rewrite (e_not_type 0) by done. by after_e.
  - apply andb_prop in Hwf as [Ha Hb]. rewrite <- app_assoc. cbn [app]. rewrite <- app_assoc, p_stmt_simple by (by apply e_simple, (pr_start 0)). unfold p_simple. rewrite (e_not_type 0) by done.
    after_e. by after_e.
  - rewrite <- app_comm_cons, p_stmt_return. rewrite start_expect; [|tauto|rewrite <- app_assoc; by apply (pr_start 0)]. rewrite <- app_assoc. by after_e.
  - reflexivity.
  - reflexivity.
  - cbn [length] in Hlen, Hn. rewrite app_length in Hlen, Hn. cbn [length] in Hlen, Hn. rewrite <- app_comm_cons, p_stmt_block, <- app_assoc. cbn [app].
    rewrite (stmts_ok N); [done|done|lia|done|lia].
  - apply andb_prop in Hwf as [Hwf Hb]. apply andb_prop in Hwf as [Hc Ha]. cbn [length] in Hlen, Hn. rewrite app_length in Hlen, Hn. cbn [length] in Hlen, Hn. rewrite app_length in Hlen, Hn.
    rewrite <- !app_comm_cons, p_stmt_if. cbn [mbind option_bind app expect is_p punct_eqb]. rewrite <- app_assoc. cbn [app]. after_e. rewrite <- app_assoc. destruct b as [b|].
    + apply andb_prop in Hb as [Hoa Hb]. cbn [length] in Hlen, Hn. rewrite IH; [|lia|done|destruct (open_if a); done|lia]. cbn [mbind option_bind app].
      rewrite IH; [done|lia|done|done|lia].
    + cbn [app length] in *. rewrite IH; [|lia|done|by intros _; apply Ho|lia]. cbn [mbind option_bind]. rewrite not_else_if; [done|by apply Ho].
  - apply andb_prop in Hwf as [He Hcs]. cbn [length] in Hlen, Hn. rewrite app_length in Hlen, Hn. cbn [length] in Hlen, Hn. rewrite app_length in Hlen, Hn. cbn [length] in Hlen, Hn.
    rewrite <- !app_comm_cons, p_stmt_switch. cbn [mbind option_bind app expect is_p punct_eqb]. rewrite <- app_assoc. cbn [app]. after_e. rewrite <- app_assoc. cbn [app].
    rewrite (cases_ok N); [done|done|lia|done|lia].
  - apply andb_prop in Hwf as [Hwf Hbody]. apply andb_prop in Hwf as [Hwf Hb]. apply andb_prop in Hwf as [Hwf Ha]. apply andb_prop in Hwf as [Hi Hc].
    rewrite <- !app_comm_cons, p_stmt_for. cbn [mbind option_bind app expect is_p punct_eqb].
    repeat (rewrite <- app_assoc; cbn [app]; after_e). repeat (cbn [length] in Hlen, Hn; rewrite ?app_length in Hlen, Hn).
    rewrite IH; [done|lia|done|done|lia].
  - apply andb_prop in Hwf as [Ht He]. rewrite <- app_assoc. cbn [app]. rewrite <- app_assoc. rewrite p_stmt_simple by (by apply t_simple, type_t_start, local_wf). unfold p_simple. rewrite local_type_start by done. unfold p_decl.
    rewrite type_ok by (by apply local_wf). cbn [mbind option_bind app expect is_p punct_eqb]. by after_e.
  - apply andb_prop in Hwf as [Ht _]. rewrite <- app_assoc. cbn [app]. rewrite p_stmt_simple by (by apply t_simple, type_t_start, local_wf). unfold p_simple. rewrite local_type_start by done. unfold p_decl.
    by rewrite type_ok by (by apply local_wf).
  - apply andb_prop in Hwf as [Ht He]. rewrite <- app_assoc. cbn [app]. rewrite <- app_assoc. rewrite p_stmt_simple by (by apply t_simple, type_t_start, local_wf). unfold p_simple. rewrite local_type_start by done. unfold p_decl.
    rewrite type_ok by (by apply local_wf). cbn [mbind option_bind app expect is_p punct_eqb]. rewrite e_args_ok; [done|tauto|done].
Qed.
Lemma fun_body_ok b rest : forallb wf_s b = true -> p_body (pr_stmts b ++ TP PRBrace :: rest) = Some (b, rest).
Proof.
  intros H. unfold p_body. apply (stmts_ok (S (length (pr_stmts b)))); [|lia|done|unfold steps; rewrite app_length; cbn [length]; lia].
  intros s n r _. apply (stmt_ok (S (length (pr_stmt s)))). lia.
Qed.

(** ** Classes and functions *)
Definition pr_params (ps : list param) : list tok := pr_args PRParen (map pr_param ps).
Definition pr_member (m : member) : list tok :=
  match m with
  | MLabel true => [TKw KPublic; TP PColon]
  | MLabel false => [TKw KPrivate; TP PColon]
  | MMethod None x ps => TId x :: TP PLParen :: pr_params ps ++ [TP PSemi]
  | MMethod (Some t) x ps => pr_type t ++ TId x :: TP PLParen :: pr_params ps ++ [TP PSemi]
  | MField t x None => pr_type t ++ [TId x; TP PSemi]
  | MField t x (Some e) => pr_type t ++ TId x :: TP PAssign :: pr_expr e ++ [TP PSemi]
  end.
Definition wf_m (m : member) : bool :=
  match m with
  | MLabel _ => true
  | MMethod None _ ps => forallb wf_param ps
  | MMethod (Some t) _ ps => wf_type t && forallb wf_param ps
  | MField t _ e => wf_type t && match e with Some e => wf_e 0 e | None => true end
  end.
Lemma p_member_is_typed t x rest : wf_type t = true -> p_member (pr_type t ++ TId x :: rest) = p_member_typed (pr_type t ++ TId x :: rest).
Proof.
  unfold wf_type, pr_type. destruct t as [c b l]. cbn. intros [Hb Hs]%andb_prop. destruct c; [done|]. destruct b as [| | | | | |[|a q]]; try done.
  cbn [app pr_base pr_name]. unfold p_member at 1. replace (expect PLParen _) with (@None (list tok)); [done|].
  destruct q as [|b q]; [|done]. destruct l as [|p l]; [done|]. cbn in Hs. by destruct p.
Qed.
Lemma member_ok m rest : wf_m m = true -> p_member (pr_member m ++ rest) = Some (m, rest).
Proof.
  destruct m as [[]|[t|] x ps|t x [e|]]; cbn [pr_member wf_m]; intros H; try done.
  - apply andb_prop in H as [Ht Hp]. rewrite <- app_assoc. cbn [app]. rewrite p_member_is_typed by done. unfold p_member_typed. rewrite type_ok by done.
    cbn [mbind option_bind app expect is_p punct_eqb]. rewrite <- app_assoc. unfold pr_params. by rewrite params_ok.
  - cbn [app]. unfold p_member. cbn [mbind option_bind app expect is_p punct_eqb]. rewrite <- app_assoc. unfold pr_params. by rewrite params_ok.
  - apply andb_prop in H as [Ht He]. rewrite <- app_assoc. cbn [app]. rewrite p_member_is_typed by done. unfold p_member_typed. rewrite type_ok by done.
    cbn [mbind option_bind app expect is_p punct_eqb]. rewrite <- app_assoc. by after_e.
  - apply andb_prop in H as [Ht _]. rewrite <- app_assoc. cbn [app]. rewrite p_member_is_typed by done. unfold p_member_typed. by rewrite type_ok by done.
Qed.
Lemma member_start m rest : wf_m m = true -> expect PRBrace (pr_member m ++ rest) = None.
Proof.
  destruct m as [[]|[t|] x ps|t x [e|]]; cbn [pr_member wf_m]; intros H; try done; apply andb_prop in H as [Ht _]; rewrite <- app_assoc; by apply t_start_expect, type_t_start.
Qed.
Lemma members_ok ms n rest : forallb wf_m ms = true -> length ms < n -> p_members n (concat (map pr_member ms) ++ TP PRBrace :: rest) = Some (ms, rest).
Proof.
  revert n. induction ms as [|m ms IH]; intros n Hwf Hn; (destruct n as [|n]; [lia|]); [done|]. cbn [map concat]. cbn [forallb] in Hwf. apply andb_prop in Hwf as [Hm Hms]. rewrite <- app_assoc.
  cbn [p_members]. rewrite member_start, member_ok by done. cbn [mbind option_bind]. rewrite IH; [done|done|cbn in Hn; lia].
Qed.
Lemma members_len ms : forallb wf_m ms = true -> length ms <= length (concat (map pr_member ms)).
Proof.
  induction ms as [|m ms IH]; [done|]. cbn [forallb map concat length]. intros [Hm Hms]%andb_prop. rewrite app_length. specialize (IH Hms).
  assert (1 <= length (pr_member m)); [|lia]. destruct m as [[]|[t|] x ps|t x [e|]]; cbn [pr_member]; rewrite ?app_length; cbn [length]; lia.
Qed.
Definition pr_fields (l : list gostr) : list tok := concat (map (fun x => [TId x; TP PComma]) l).
Lemma fields_ok l rest : p_fields (pr_fields l ++ TP PRBrace :: rest) = Some (l, rest).
Proof. unfold pr_fields. induction l as [|x l IH]; [done|]. cbn [map concat app p_fields]. by rewrite IH. Qed.

Definition pr_item (i : citem) : list tok :=
  match i with
  | CPre l => [TPre l]
  | CVar t x e => pr_type t ++ TId x :: TP PAssign :: pr_expr e ++ [TP PSemi]
  | CEnum x l => TKw KEnum :: TKw KClass :: TId x :: TP PLBrace :: pr_fields l ++ [TP PRBrace; TP PSemi]
  | CClass x b ms => TKw KClass :: TId x :: match b with Some q => TP PColon :: TKw KPublic :: pr_name q | None => [] end ++
                     TP PLBrace :: concat (map pr_member ms) ++ [TP PRBrace; TP PSemi]
  | CFun None q ps b => pr_name q ++ TP PLParen :: pr_params ps ++ TP PLBrace :: pr_stmts b ++ [TP PRBrace]
  | CFun (Some t) q ps b => pr_type t ++ pr_name q ++ TP PLParen :: pr_params ps ++ TP PLBrace :: pr_stmts b ++ [TP PRBrace]
  end.
Definition wf_i (i : citem) : bool :=
  match i with
  | CPre _ | CEnum _ _ => true
  | CVar t x e => wf_type t && wf_e 0 e
  | CClass x b ms => match b with Some q => nonempty q | None => true end && forallb wf_m ms
  | CFun t q ps b => match t with Some t => wf_type t | None => true end && nonempty q && forallb wf_param ps && forallb wf_s b
  end.
(** An item within namespaces. *)
Definition in_ns (ns : list gostr) (i : citem) : citem := match i with CFun t q ps b => CFun t (ns ++ q) ps b | i => i end.
Lemma p_item_is_typed ns t q rest : wf_type t = true -> nonempty q = true ->
  p_item ns (pr_type t ++ pr_name q ++ rest) = p_item_typed ns (pr_type t ++ pr_name q ++ rest).
Proof.
  destruct q as [|x q]; [done|]. intros Ht _. unfold wf_type, pr_type in *. destruct t as [c b l]. cbn in Ht |- *. apply andb_prop in Ht as [Hb Hs]. destruct c; [done|]. destruct b as [| | | | | |[|a q']]; try done.
  unfold p_item at 1. cbn [app pr_base pr_name].
  change (TId a :: (pr_name_rest q' ++ map TP l) ++ TId x :: pr_name_rest q ++ rest) with ((pr_name (a :: q') ++ map TP l) ++ TId x :: pr_name_rest q ++ rest). rewrite <- app_assoc.
  rewrite name_ok; [|done|destruct l as [|p l]; [done|]; cbn in Hs; by destruct p].
  replace (expect PLParen _) with (@None (list tok)); [by rewrite app_assoc|]. destruct l as [|p l]; [done|]. cbn in Hs. by destruct p.
Qed.
Lemma fun_rest_ok t q ps b rest : forallb wf_param ps = true -> forallb wf_s b = true ->
  p_fun_rest t q (pr_params ps ++ TP PLBrace :: pr_stmts b ++ TP PRBrace :: rest) = Some (CFun t q ps b, rest).
Proof. intros Hp Hb. unfold p_fun_rest, pr_params. rewrite params_ok by done. cbn [mbind option_bind expect is_p punct_eqb]. by rewrite fun_body_ok. Qed.
Lemma item_ok ns i rest : wf_i i = true -> p_item ns (pr_item i ++ rest) = Some (in_ns ns i, rest).
Proof.
  destruct i as [l|t x e|x l|x b ms|[t|] q ps b]; cbn [pr_item wf_i in_ns]; intros H.
  - done.
  - apply andb_prop in H as [Ht He]. rewrite <- app_assoc. cbn [app]. change (TId x :: TP PAssign :: (pr_expr e ++ [TP PSemi]) ++ rest) with (pr_name [x] ++ TP PAssign :: (pr_expr e ++ [TP PSemi]) ++ rest).
    rewrite p_item_is_typed by done. unfold p_item_typed. cbn [pr_name pr_name_rest app]. rewrite type_ok by done. cbn [mbind option_bind p_name p_name_rest expect is_p punct_eqb]. rewrite <- app_assoc. by after_e.
  - cbn [app]. unfold p_item, p_enum. cbn [mbind option_bind expect is_p punct_eqb]. rewrite <- app_assoc. cbn [app]. by rewrite fields_ok.
  - apply andb_prop in H as [Hb Hm]. cbn [app]. unfold p_item, p_class. destruct b as [q|]; cbn [app expect is_p punct_eqb].
    + rewrite <- !app_assoc. cbn [app]. rewrite name_ok by done. cbn [mbind option_bind]. unfold p_class_rest. cbn [mbind option_bind expect is_p punct_eqb]. rewrite <- app_assoc. cbn [app]. rewrite members_ok; [done|done|].
      pose proof (members_len _ Hm). rewrite app_length. cbn [length]. lia.
    + unfold p_class_rest. cbn [mbind option_bind expect is_p punct_eqb]. rewrite <- app_assoc. cbn [app]. rewrite members_ok; [done|done|].
      pose proof (members_len _ Hm). rewrite app_length. cbn [length]. lia.
  - apply andb_prop in H as [H Hb]. apply andb_prop in H as [H Hp]. apply andb_prop in H as [Ht Hq]. rewrite <- !app_assoc. rewrite p_item_is_typed by done. unfold p_item_typed.
    destruct q as [|x q]; [done|]. cbn [pr_name app]. rewrite type_ok by done. cbn [mbind option_bind].
    change (TId x :: pr_name_rest q ++ TP PLParen :: (pr_params ps ++ TP PLBrace :: pr_stmts b ++ [TP PRBrace]) ++ rest) with (pr_name (x :: q) ++ TP PLParen :: (pr_params ps ++ TP PLBrace :: pr_stmts b ++ [TP PRBrace]) ++ rest).
    rewrite name_ok by done. cbn [mbind option_bind app expect is_p punct_eqb]. rewrite <- app_assoc. cbn [app]. rewrite <- app_assoc. cbn [app]. by rewrite fun_rest_ok.
  - apply andb_prop in H as [H Hb]. apply andb_prop in H as [H Hp]. rewrite <- !app_assoc. unfold p_item.
    destruct q as [|x q]; [done|]. cbn [pr_name app].
    change (TId x :: pr_name_rest q ++ TP PLParen :: (pr_params ps ++ TP PLBrace :: pr_stmts b ++ [TP PRBrace]) ++ rest) with (pr_name (x :: q) ++ TP PLParen :: (pr_params ps ++ TP PLBrace :: pr_stmts b ++ [TP PRBrace]) ++ rest).
    rewrite name_ok by done. cbn [mbind option_bind app expect is_p punct_eqb]. rewrite <- app_assoc. cbn [app]. rewrite <- app_assoc. cbn [app]. by rewrite fun_rest_ok.
Qed.

(** The whole file: items, and items in a namespace. *)
Inductive top := TopItem (i : citem) | TopNs (x : gostr) (l : list citem).
Definition pr_top (t : top) : list tok :=
  match t with TopItem i => pr_item i | TopNs x l => TKw KNamespace :: TId x :: TP PLBrace :: concat (map pr_item l) ++ [TP PRBrace] end.
Definition flat (t : top) : list citem := match t with TopItem i => [i] | TopNs x l => map (in_ns [x]) l end.
Definition wf_top (t : top) : bool := match t with TopItem i => wf_i i | TopNs _ l => forallb wf_i l end.
Definition item_start (ts : list tok) : bool := match ts with [] | TKw KNamespace :: _ | TP PRBrace :: _ => false | _ => true end.
Lemma p_items_S n ns ts : item_start ts = true -> p_items (S n) ns ts = '(i, r) ← p_item ns ts; l ← p_items n ns r; Some (i :: l).
Proof. destruct ts as [|t r]; [done|]. destruct t as [|k| | |p|]; try done; [destruct k; try done|destruct p; try done]. Qed.
Lemma t_item_start ts : t_start ts = true -> item_start ts = true.
Proof. destruct ts as [|t r]; [done|]. destruct t as [|k| | | |]; try done. by destruct k. Qed.
Lemma pr_item_start i rest : wf_i i = true -> item_start (pr_item i ++ rest) = true.
Proof.
  destruct i as [l|t x e|x l|x b ms|[t|] q ps b]; cbn [pr_item wf_i]; intros H; try done; rewrite <- ?app_assoc.
  - apply andb_prop in H as [Ht _]. by apply t_item_start, type_t_start.
  - apply andb_prop in H as [H _]. apply andb_prop in H as [H _]. apply andb_prop in H as [Ht _]. by apply t_item_start, type_t_start.
  - apply andb_prop in H as [H _]. apply andb_prop in H as [H _]. by destruct q.
Qed.
Lemma items_run ns l n rest : forallb wf_i l = true -> p_items (length l + n) ns (concat (map pr_item l) ++ rest) = r ← p_items n ns rest; Some (map (in_ns ns) l ++ r).
Proof.
  induction l as [|i l IH]; cbn [length map concat app forallb Nat.add]; intros H.
  - by destruct (p_items n ns rest).
  - apply andb_prop in H as [Hi Hl]. rewrite <- app_assoc, p_items_S by (by apply pr_item_start). rewrite item_ok by done. cbn [mbind option_bind]. rewrite IH by done. by destruct (p_items n ns rest).
Qed.
Lemma p_items_ns n ns x r : p_items (S n) ns (TKw KNamespace :: TId x :: TP PLBrace :: r) = p_items n (ns ++ [x]) r.
Proof. reflexivity. Qed.
Lemma p_items_close n x r : p_items (S n) [x] (TP PRBrace :: r) = p_items n [] r.
Proof. reflexivity. Qed.
Definition top_steps (t : top) : nat := match t with TopItem _ => 1 | TopNs _ l => 2 + length l end.
Lemma tops_run l n : forallb wf_top l = true -> p_items (sum_list_with top_steps l + S n) [] (concat (map pr_top l)) = Some (concat (map flat l)).
Proof.
  induction l as [|t l IH]; [done|]. cbn [forallb map concat sum_list_with]. intros [Ht Hl]%andb_prop. specialize (IH Hl).
  destruct t as [i|x is_]; cbn [pr_top flat top_steps wf_top] in *.
  - replace (1 + sum_list_with top_steps l + S n) with (length [i] + (sum_list_with top_steps l + S n)) by (cbn; lia). replace (pr_item i) with (concat (map pr_item [i])) by (cbn; by rewrite app_nil_r).
    rewrite items_run by (cbn; by rewrite Ht). rewrite IH. cbn. by destruct i.
  - replace (2 + length is_ + sum_list_with top_steps l + S n) with (S (length is_ + S (sum_list_with top_steps l + S n))) by lia.
    rewrite <- !app_comm_cons, p_items_ns, <- app_assoc, items_run by done. cbn [app]. rewrite p_items_close, IH. done.
Qed.
Lemma item_len i : wf_i i = true -> 1 <= length (pr_item i).
Proof. intros H. pose proof (pr_item_start i [] H) as Hs. destruct (pr_item i); [done|cbn; lia]. Qed.
Lemma tops_len l : forallb wf_top l = true -> sum_list_with top_steps l <= length (concat (map pr_top l)).
Proof.
  induction l as [|t l IH]; [done|]. cbn [forallb map concat sum_list_with]. intros [Ht Hl]%andb_prop. specialize (IH Hl). rewrite app_length.
  assert (top_steps t <= length (pr_top t)); [|lia]. destruct t as [i|x is_]; cbn in Ht |- *; [by apply item_len|].
  rewrite app_length. cbn. assert (length is_ <= length (concat (map pr_item is_))); [|lia]. clear -Ht. induction is_ as [|i l IH]; [done|]. cbn in *. apply andb_prop in Ht as [Hi Hl]. specialize (IH Hl). rewrite app_length. pose proof (item_len i Hi). lia.
Qed.
Lemma p_items_ok l : forallb wf_top l = true -> p_items (S (length (concat (map pr_top l)))) [] (concat (map pr_top l)) = Some (concat (map flat l)).
Proof.
  intros H. pose proof (tops_len l H). set (L := length (concat (map pr_top l))) in *. replace (S L) with (sum_list_with top_steps l + S (L - sum_list_with top_steps l)) by lia. by apply tops_run.
Qed.
(** The reader on a text whose tokens are those of a program. *)
Lemma read_tokens text l : lex_lines (lines_of text) = Some (concat (map pr_top l)) -> forallb wf_top l = true -> read_cpp text = Some (concat (map flat l)).
Proof. intros E H. unfold read_cpp. rewrite E. cbn [mbind option_bind]. by apply p_items_ok. Qed.
