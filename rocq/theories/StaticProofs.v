(** * The declarations of main.cpp check *)
From Verif Require Export RunOk SpecStatic PropHeader.
From Verif Require Export StmProofs.

Lemma mem_true x l : mem x l = true <-> x ∈ l.
Proof. apply bool_decide_eq_true. Qed.
Lemma distinct_true l : distinct l = true <-> NoDup l.
Proof. apply bool_decide_eq_true. Qed.

Lemma forallb_map {A B} (f : B -> bool) (g : A -> B) l : forallb f (map g l) = forallb (fun x => f (g x)) l.
Proof. induction l as [|x l IH]; [done|]. cbn. by rewrite IH. Qed.
(** ** Equations *)
Section Eqs.
  Context (h : list item) (p : list citem) (cls : option gostr) (ret : bool).
  Notation ex vars := (ck_expr h p cls vars).
  Notation st := (ck_stmt h p cls ret).
  Lemma ck_call vars q args : ex vars (MainAst.call q args) = ck_fun h p cls q (length args) && forallb (ex vars) args.
  Proof. unfold MainAst.call. cbn. rewrite andb_true_r. f_equal. Qed.
  Lemma ck_mcall vars o m args : ex vars (mcall o m args) = ck_name p cls vars [o] && (any_method p m (length args) && forallb (ex vars) args).
  Proof. unfold mcall. cbn -[ck_name]. by rewrite andb_true_r. Qed.
  Lemma ck_ops vars e l : ex vars (EOps e l) = ex vars e && forallb (fun oe => ex vars oe.2) l.
  Proof. cbn. f_equal. induction l as [|[o a] l IH]; [done|]. cbn. by rewrite IH. Qed.
  Lemma ck_nm vars x : ex vars (nm x) = ck_name p cls vars [x]. Proof. done. Qed.
  Lemma ck_name_eq vars q : ex vars (EName q) = ck_name p cls vars q. Proof. done. Qed.
  Lemma block_fix brk b vars here : (fix block (brk : bool) (here vars : list gostr) (l : list stmt) {struct l} : bool :=
          match l with
          | [] => true
          | s :: r => st brk vars s && match declared s with Some x => negb (mem x here) && block brk (x :: here) (x :: vars) r | None => block brk here vars r end
          end) brk here vars b = ck_block h p cls ret brk here vars b.
  Proof. revert here vars. induction b as [|s b IH]; [done|]. intros here vars. cbn. destruct (declared s); by rewrite IH. Qed.
  Lemma ck_block_eq brk vars b : st brk vars (SBlock b) = ck_block h p cls ret brk [] vars b.
  Proof. apply block_fix. Qed.
  Lemma ck_if brk vars c a b : st brk vars (SIf c a b) = ex vars c && st brk vars a && match b with Some b => st brk vars b | None => true end.
  Proof. done. Qed.
  Lemma ck_expr_stmt brk vars e : st brk vars (SExpr e) = ex vars e. Proof. done. Qed.
  Lemma ck_switch brk vars e cases : st brk vars (SSwitch e cases) = ex vars e && bool_decide (NoDup (omap label_name cases)) &&
    forallb (fun c => ck_label p c.1 && forallb (fun s => negb (bool_decide (is_Some (declared s)))) c.2 && ck_block h p cls ret true [] vars c.2) cases.
  Proof.
    cbn. f_equal. pose proof block_fix as B.
    induction cases as [|[c b] cs IH]; [done|]. cbn. rewrite B, IH. done.
  Qed.
  Lemma ck_block_app brk here vars a b : Forall (fun s => declared s = None) a ->
    ck_block h p cls ret brk here vars (a ++ b) = ck_block h p cls ret brk here vars a && ck_block h p cls ret brk here vars b.
  Proof. induction 1 as [|s a Hs _ IH]; [done|]. cbn. rewrite Hs, IH. by rewrite andb_assoc. Qed.
  Lemma ck_block_all brk here vars a : Forall (fun s => declared s = None /\ st brk vars s = true) a -> ck_block h p cls ret brk here vars a = true.
  Proof. induction 1 as [|s a [Hs Hk] _ IH]; [done|]. cbn. by rewrite Hs, Hk, IH. Qed.
End Eqs.

Lemma method_n_elem ms m n : method_n ms m n = true <-> exists t ps, MMethod (Some t) m ps ∈ ms /\ length ps = n.
Proof.
  unfold method_n. rewrite existsb_exists. split.
  - intros (i & Hi & H). destruct i as [|[t|] x ps|]; try done. apply andb_true_iff in H as [H1 H2]. apply bool_decide_eq_true in H1 as ->. apply Nat.eqb_eq in H2.
    exists t, ps. split; [by apply elem_of_list_In|done].
  - intros (t & ps & Hi & <-). exists (MMethod (Some t) m ps). split; [by apply elem_of_list_In|]. by rewrite str_eqb_refl, Nat.eqb_refl.
Qed.
Lemma find_class_elem p c b ms : find_class p c = Some (b, ms) -> CClass c b ms ∈ p.
Proof.
  induction p as [|i p IH]; [done|]. destruct i; cbn; try (intros H; right; by apply IH). destruct (str_eqb name c) eqn:E.
  - intros [= <- <-]. apply bool_decide_eq_true in E as ->. left.
  - intros H. right. by apply IH.
Qed.
Lemma any_method_in p c b ms m n : find_class p c = Some (b, ms) -> method_n ms m n = true -> any_method p m n = true.
Proof.
  intros Hc Hm. unfold any_method. apply orb_true_iff. left. apply existsb_exists. exists (CClass c b ms). split; [|done]. apply elem_of_list_In. by apply find_class_elem.
Qed.
Lemma has_method_iff ms x : has_method ms x = true <-> x ∈ method_names ms.
Proof.
  rewrite has_method_elem. unfold method_names. rewrite elem_of_list_omap. split.
  - intros (r & ps & H). by exists (MMethod (Some r) x ps).
  - intros (i & Hi & E). destruct i as [|[r|] y ps|]; try done. injection E as ->. by exists r, ps.
Qed.

(** ** Headers *)
Record headers (v : variant) (p : list citem) : Prop := {
  hd_rtcg : included p (lit """rtcg.h""") = true;
  hd_convert : convert_included p = true;
  hd_string : included p (lit "<string>") = true;
  hd_stream : match v with VRos => ros_included p = true /\ included p (lit """std_msgs/Bool.h""") = true /\
      is_Some (find_const p (lit "TIMEOUT_SEC")) /\ is_Some (find_const p (lit "INPUT_DELAY_SEC"))
    | _ => included p (lit "<iostream>") = true end;
}.
Section Names.
  Context (h : list item) (p : list citem) (v : variant) (Hh : headers v p).
  Context (cls : option gostr) (ret : bool).
  Notation ex vars := (ck_expr h p cls vars).
  Lemma ck_std vars x : is_Some (std_name [lit "std"; x]) -> ex vars (nm2 (lit "std") x) = true.
  Proof.
    intros H. unfold nm2. rewrite ck_name_eq. unfold ck_name. rewrite (bool_decide_eq_true_2 _ H). cbn [andb].
    assert (E : lib_has p [lit "std"; x] = true).
    { unfold lib_has. change (str_eqb (lit "std") (lit "rtcg")) with false. change (str_eqb (lit "std") (lit "ros")) with false. change (str_eqb (lit "std") (lit "std_msgs")) with false. cbn iota.
      destruct (path_eqb _ _) eqn:E. { apply bool_decide_eq_true in E. injection E as ->. by destruct H as [? H]. }
      change (str_eqb (lit "std") (lit "std")) with true. cbn [andb]. pose proof (hd_stream _ _ Hh) as Hs. destruct v; [rewrite Hs; by rewrite ?orb_true_l|destruct Hs as [-> _]; by rewrite orb_true_r|by rewrite Hs]. }
    rewrite E. by rewrite !orb_true_r.
  Qed.
  Lemma ck_prelude vars a b c : existsb (path_eqb [a; b; c]) prelude_enums = true -> a = lit "rtcg" -> ex vars (nm3 a b c) = true.
  Proof. intros H ->. unfold nm3. rewrite ck_name_eq. unfold ck_name. rewrite H. unfold lib_has. change (str_eqb (lit "rtcg") (lit "rtcg")) with true. cbn iota. by rewrite (hd_rtcg _ _ Hh). Qed.
  Lemma ck_status vars s : ex vars (status_q (status_text s)) = true.
  Proof. apply ck_prelude; [by destruct s|done]. Qed.
  Lemma ck_str vars s : cpp_safe s -> ex vars (EStr s) = true.
  Proof.
    intros H. cbn. apply bool_decide_eq_true. unfold str_value. rewrite str_body_safe by done. by eexists.
  Qed.
  Lemma ck_var vars x : x ∈ vars -> ex vars (nm x) = true.
  Proof. intros H. rewrite ck_nm. unfold ck_name. by rewrite (proj2 (mem_true _ _) H). Qed.
  Lemma ck_log brk vars level s ps : level = info \/ level = err -> has_method (methods_of p cls) (lit "ROS_" ++ to_upper level ++ lit "_STREAM") = false ->
    cpp_safe s -> forallb (ex vars) ps = true -> ck_stmt h p cls ret brk vars (a_log v level (EStr s) ps) = true.
  Proof.
    intros Hl Hm Hs Hps. pose proof (ck_std vars (lit "endl") ltac:(by eexists)) as He. pose proof (ck_str vars s Hs) as Hs'.
    assert (Hp : forallb (fun oe : bop * expr => ex vars oe.2) (shl (ps ++ [endl])) = true).
    { unfold shl. rewrite forallb_map. change (forallb (ex vars) (ps ++ [endl]) = true). rewrite forallb_app, Hps. cbn [forallb andb]. unfold endl. by rewrite He. }
    assert (Hr : v <> VRos -> ck_stmt h p cls ret brk vars (SExpr (EOps (nm2 (lit "std") (lit "cerr")) (shl (EStr (lit "[" ++ level ++ lit "] ") :: EStr s :: ps ++ [endl])))) = true).
    { intros _. rewrite ck_expr_stmt, ck_ops. rewrite (ck_std vars (lit "cerr")) by (by eexists). cbn [andb shl map forallb snd]. rewrite Hs'. rewrite ck_str by (destruct Hl as [-> | ->]; by apply safeb_ok). exact Hp. }
    unfold a_log. destruct v; [by apply Hr| |by apply Hr].
    unfold ecall. rewrite ck_expr_stmt, ck_call. cbn [length forallb]. rewrite ck_ops, Hs', Hp. unfold ck_fun. rewrite Hm.
    pose proof (hd_stream _ _ Hh) as (E & _). rewrite E. by destruct Hl as [-> | ->].
  Qed.
End Names.

(** ** More items, more declared *)
Lemma included_app p q s : included p s = true -> included (p ++ q) s = true.
Proof. unfold included. rewrite existsb_app. by intros ->. Qed.
Lemma find_class_app p q c x : find_class p c = Some x -> find_class (p ++ q) c = Some x.
Proof. induction p as [|i p IH]; [done|]. destruct i; cbn; try done. by destruct (str_eqb _ _). Qed.
Lemma find_const_app p q c x : find_const p c = Some x -> find_const (p ++ q) c = Some x.
Proof. induction p as [|i p IH]; [done|]. destruct i; cbn; try done. by destruct (str_eqb _ _). Qed.
Lemma own_type_app p q x : own_type p x = true -> own_type (p ++ q) x = true.
Proof. unfold own_type. rewrite existsb_app. by intros ->. Qed.
Lemma own_enumerator_app p q x : own_enumerator p x = true -> own_enumerator (p ++ q) x = true.
Proof. unfold own_enumerator. rewrite existsb_app. by intros ->. Qed.
Lemma own_function_app p q x n : own_function p x n = true -> own_function (p ++ q) x n = true.
Proof. unfold own_function. rewrite existsb_app. by intros ->. Qed.
Lemma headers_app v p q : headers v p -> headers v (p ++ q).
Proof.
  intros [H1 H2 H3 H4]. split; [by apply included_app..|].
  destruct v; [by apply included_app| |by apply included_app]. destruct H4 as (H4 & H5 & [x Hx] & [y Hy]).
  split; [by apply included_app|]. split; [by apply included_app|]. split; eexists; by apply find_const_app.
Qed.
Lemma ck_items_app h seen a b : ck_items h seen (a ++ b) = ck_items h seen a && ck_items h (seen ++ a) b.
Proof.
  revert seen. induction a as [|i a IH]; intros seen; cbn [ck_items app]; [by rewrite app_nil_r|]. rewrite IH, <- app_assoc. cbn [app]. by rewrite andb_assoc.
Qed.
Lemma ck_items_all h (env : list citem -> Prop) seen l : (forall p q, env p -> env (p ++ q)) -> env seen ->
  (forall p i, i ∈ l -> env p -> ck_item h p i = true) -> ck_items h seen l = true.
Proof.
  intros Hm. revert seen. induction l as [|i l IH]; intros seen He Hl; [done|]. cbn [ck_items]. rewrite (Hl (seen ++ [i]) i); [|left|by apply Hm].
  apply IH; [by apply Hm|]. intros p j Hj. apply Hl. by right.
Qed.

(** ** What has been declared *)
Record declared_upto (v : variant) (tests : list gostr) (m : stm) (k : nat) (p : list citem) : Prop := {
  du_headers : headers v p;
  du_verdict : 1 <= k -> find_class p (lit "Verdict") = Some (None, a_verdict_members tests);
  du_state : 2 <= k -> own_type p (lit "State") = true /\ forall s, s ∈ m_states m -> own_enumerator p [lit "State"; enum_field (st_id s)] = true;
  du_name : 3 <= k -> own_function p [lit "state"; lit "name"] 1 = true;
  du_machine : 4 <= k -> find_class p (lit "StateMachine") = Some (Some [lit "rtcg"; lit "TestCase"], a_members v (make_transitions m) (s0_of m) (m_states m));
}.
Lemma declared_app v tests m k p q : declared_upto v tests m k p -> declared_upto v tests m k (p ++ q).
Proof.
  intros [H1 H2 H3 H4 H5]. split.
  - by apply headers_app.
  - intros H. by apply find_class_app, H2.
  - intros H. destruct (H3 H) as [A B]. split; [by apply own_type_app|]. intros s Hs. by apply own_enumerator_app, B.
  - intros H. by apply own_function_app, H4.
  - intros H. by apply find_class_app, H5.
Qed.
Lemma main_headers v ctx : headers v (a_includes v ctx ++ a_constants v).
Proof.
  assert (H : forall s l, l ∈ [lit "#include <string>"] ++
    match v with
    | VRos => [lit "#include ""ros/ros.h"""; lit "#include ""std_msgs/Bool.h"""; lit "#include ""std_msgs/String.h"""]
    | _ => [lit "#include <iostream>"]
    end ++ map cv_include (cx_includes ctx) ++
    [lit "#include ""rtcg.h""    // Helper definitions (compile with ../rtcg/rtcg.cpp)";
     lit "#include ""convert.h"" // Channel type definitions and conversion functions"] -> (lit "#include " ++ s) `prefix_of` l -> included (a_includes v ctx ++ a_constants v) s = true).
  { intros s l Hl Hp. unfold included. rewrite existsb_app. apply orb_true_iff. left. apply existsb_exists. exists (CPre l). split; [|by apply bool_decide_eq_true].
    apply elem_of_list_In. apply elem_of_list_fmap. by exists l. }
  split.
  - eapply H; [rewrite !elem_of_app; right; right; right; left|]. by eexists.
  - eapply H; [rewrite !elem_of_app; right; right; right; right; left|]. by eexists.
  - eapply H; [left|]. by eexists.
  - destruct v.
    + eapply H; [right; left|]. by eexists.
    + split; [eapply H; [right; left|]; by eexists|]. split; [eapply H; [right; right; left|]; by eexists|].
      rewrite !(find_const_skip (a_includes VRos ctx)) by (by apply forallb_map_true). by split; eexists.
    + eapply H; [right; left|]. by eexists.
Qed.

(** ** Macros *)
Definition macro_like (x : gostr) : Prop :=
  x = lit "CONVERT_H_DEFINED" \/ ((take 3 (reverse x) = lit "laV" \/ take 3 (reverse x) = lit "gsM") /\ forall c r, x = c :: r -> is_lower c = false).
Section Macros.
  Context (h : list item) (Hmac : forall x, x ∈ map fst (macros h) -> macro_like x).
  Lemma not_macro p x : ~ macro_like x -> no_macro h p x = true.
  Proof.
    intros H. unfold no_macro. apply negb_true_iff, andb_false_iff. left. apply bool_decide_eq_false_2. intros Hx. by apply H, Hmac.
  Qed.
  Lemma like_not_in x : ~ macro_like x -> x ∉ map fst (macros h).
  Proof. intros H Hx. by apply H, Hmac. Qed.
  Lemma absent_macro p x : x ∉ map fst (macros h) -> no_macro h p x = true.
  Proof. intros H. unfold no_macro. apply negb_true_iff, andb_false_iff. left. by apply bool_decide_eq_false_2. Qed.
  Lemma absent_call_macro p x : x ∉ map fst (macros h) -> x ∉ log_macros -> no_call_macro h p x = true.
  Proof.
    intros H H'. unfold no_call_macro. rewrite absent_macro by done. cbn [andb]. apply negb_true_iff, andb_false_iff. left. unfold log_macro. apply not_true_iff_false. intros (y & Hy & E)%existsb_exists.
    apply bool_decide_eq_true in E. subst y. by apply H', elem_of_list_In.
  Qed.
  Lemma low_not_macro c (r : gostr) : is_lower c = true -> ~ macro_like (c :: r).
  Proof. intros Hc [[= -> _]|[_ H]]; [done|]. by rewrite (H c r eq_refl) in Hc. Qed.
  Lemma end_not_macro x : take 3 (reverse x) <> lit "laV" -> take 3 (reverse x) <> lit "gsM" -> x <> lit "CONVERT_H_DEFINED" -> ~ macro_like x.
  Proof. intros H1 H2 H3 [H|[[H|H] _]]; contradiction. Qed.
  Lemma fld_not_macro x : ~ macro_like (fld x).
  Proof. apply end_not_macro; unfold fld; rewrite ?reverse_app; cbn; try discriminate. intros E. apply (f_equal reverse) in E. rewrite reverse_app in E. discriminate E. Qed.
  Lemma pub_not_macro x : ~ macro_like (publisher_name x).
  Proof. unfold publisher_name. apply end_not_macro; rewrite ?reverse_app; cbn; try discriminate. intros E. apply (f_equal reverse) in E. rewrite reverse_app in E. discriminate E. Qed.
  Lemma sub_not_macro x : ~ macro_like (subscriber_name x).
  Proof. unfold subscriber_name. apply end_not_macro; rewrite ?reverse_app; cbn; try discriminate. intros E. apply (f_equal reverse) in E. rewrite reverse_app in E. discriminate E. Qed.
  Lemma callback_not_macro x : ~ macro_like (callback_name x).
  Proof. unfold callback_name. apply end_not_macro; rewrite ?reverse_app; cbn; try discriminate. intros E. apply (f_equal reverse) in E. rewrite reverse_app in E. discriminate E. Qed.
  Lemma entry_not_macro x : ~ macro_like (state_entry x).
  Proof. by apply (low_not_macro "e"). Qed.
  Lemma not_call_macro p x : ~ macro_like x -> x ∉ log_macros -> no_call_macro h p x = true.
  Proof.
    intros H H'. unfold no_call_macro. rewrite not_macro by done. cbn [andb]. apply negb_true_iff, andb_false_iff. left. unfold log_macro. apply not_true_iff_false. intros (y & Hy & E)%existsb_exists.
    apply bool_decide_eq_true in E. subst y. by apply H', elem_of_list_In.
  Qed.
  Lemma callback_not_log x : callback_name x ∉ log_macros.
  Proof. unfold log_macros. rewrite !elem_of_cons, elem_of_nil. intros [E|[E|[]]]; symmetry in E; not_callback E. Qed.
  Lemma entry_not_log x : state_entry x ∉ log_macros.
  Proof. unfold log_macros. rewrite !elem_of_cons, elem_of_nil. intros [E|[E|[]]]; discriminate E. Qed.
End Macros.

(** ** The class Verdict *)
Record tests_ok (h : list item) (tests : list gostr) : Prop := {
  tk_distinct : NoDup (lit "Verdict" :: (lit "dump" :: tests) ++ map fld tests);
  tk_macros : forall t, t ∈ tests -> t ∉ map fst (macros h) /\ t ∉ log_macros;
  tk_safe : forall t, t ∈ tests -> cpp_safe t;
}.
Lemma omap_map' {A B C} (f : B -> option C) (g : A -> B) (k : A -> C) l : (forall x, f (g x) = Some (k x)) -> omap f (map g l) = map k l.
Proof. intros H. induction l as [|x l IH]; [done|]. cbn. by rewrite H, <- IH. Qed.
Lemma omap_map_none {A B C} (f : B -> option C) (g : A -> B) l : (forall x, f (g x) = None) -> omap f (map g l) = [].
Proof. intros H. induction l as [|x l IH]; [done|]. cbn. by rewrite H, <- IH. Qed.
Lemma verdict_methods tests : method_names (a_verdict_members tests) = lit "dump" :: tests.
Proof.
  unfold method_names, a_verdict_members. rewrite !omap_app. rewrite (omap_map' _ (fun t => MMethod (Some void_t) t [(outcome_t, lit "new_val")]) (fun t => t)) by done.
  rewrite omap_map_none by done. cbn. by rewrite map_id, app_nil_r.
Qed.
Lemma verdict_fields' tests : field_names (a_verdict_members tests) = map fld tests.
Proof.
  unfold field_names, a_verdict_members. rewrite !omap_app. rewrite omap_map_none by done.
  rewrite (omap_map' _ (fun t => MField outcome_t (fld t) (Some (outcome_q (lit "UNSET")))) fld) by done. done.
Qed.
Section Verdict.
  Context (h : list item) (Hmac : forall x, x ∈ map fst (macros h) -> macro_like x) (v : variant) (tests : list gostr) (m : stm) (Ht : tests_ok h tests).
  Notation upto := (declared_upto v tests m).
  Lemma lib_type p q : declared_upto v tests m 0 p -> existsb (path_eqb (lit "rtcg" :: q)) lib_types = true -> q <> [] -> ck_base h p (BName (lit "rtcg" :: q)) = true.
  Proof.
    intros Hu H Hq. destruct q as [|x q]; [done|]. unfold ck_base. rewrite H. unfold lib_has. rewrite str_eqb_refl. apply (hd_rtcg _ _ (du_headers _ _ _ _ _ Hu)).
  Qed.
  Lemma outcome_type k p : upto k p -> ck_type h p outcome_t = true.
  Proof. intros Hu. apply lib_type; [|by vm_compute|done]. destruct Hu. split; try lia. done. Qed.
  Lemma ck_verdict p : headers v p -> ck_item h p (CClass (lit "Verdict") None (a_verdict_members tests)) = true.
  Proof.
    intros Hh. assert (Hu : upto 0 p) by (split; try lia; done). cbn [ck_item]. rewrite not_macro by (try done; by apply end_not_macro). cbn [andb].
    rewrite verdict_methods, verdict_fields'. apply andb_true_iff. split; [apply distinct_true, Ht|].
    apply forallb_forall. intros i Hi. unfold a_verdict_members in Hi. apply elem_of_list_In in Hi. rewrite !elem_of_app in Hi. destruct Hi as [Hi|[Hi|[Hi|Hi]]].
    - rewrite !elem_of_cons, elem_of_nil in Hi. destruct Hi as [->|[->|[]]]; [done|]. cbn [ck_member]. rewrite not_call_macro; [done|done|by apply (low_not_macro "d")|]. apply (bool_decide_eq_true_1 _); by vm_compute.
    - apply elem_of_list_fmap in Hi as (t & -> & Hi). cbn [ck_member]. destruct (tk_macros _ _ Ht t Hi) as [M1 M2]. rewrite absent_call_macro by done. cbn [andb].
      unfold ck_params. cbn [map forallb fst snd]. rewrite (outcome_type 0) by done. rewrite not_macro by (try done; by apply (low_not_macro "n")). cbn. done.
    - apply elem_of_list_singleton in Hi as ->. done.
    - apply elem_of_list_fmap in Hi as (t & -> & Hi). cbn [ck_member]. rewrite not_macro by (try done; apply fld_not_macro). rewrite (outcome_type 0) by done.
      unfold outcome_q. by rewrite (ck_prelude _ _ v).
  Qed.

  Lemma ck_method p r c f ps b bs ms : find_class p c = Some (bs, ms) -> ~ macro_like c -> c ∉ log_macros -> f ∉ map fst (macros h) -> f ∉ log_macros ->
    ck_return h p r = true -> forallb (ck_type h p) (map fst ps) = true -> NoDup (map snd ps) -> (forall x, x ∈ map snd ps -> ~ macro_like x) ->
    MMethod r f ps ∈ ms \/ (exists ps', map fst ps' = map fst ps /\ MMethod r f ps' ∈ ms) ->
    ck_block h p (Some c) (returns_value r) false (map snd ps) (map snd ps) b = true -> (returns_value r = true -> ends_with_return b = true) ->
    ck_item h p (CFun r [c; f] ps b) = true.
  Proof.
    intros Hc M1 M2 M3 M4 Hr Hps Hnd Hpm Hd Hb He. cbn [ck_item forallb]. rewrite not_call_macro, absent_call_macro by done. cbn [andb]. rewrite Hr. unfold ck_params. rewrite Hps.
    rewrite (proj2 (distinct_true _) Hnd). rewrite (proj2 (forallb_forall _ _)). 2: { intros x Hx. apply not_macro; [done|]. by apply Hpm, elem_of_list_In. }
    cbn [andb]. rewrite Hc. apply andb_true_iff. split.
    - unfold declares_method. apply existsb_exists. assert (exists ps', map fst ps' = map fst ps /\ MMethod r f ps' ∈ ms) as (ps' & E & Hi) by (destruct Hd as [Hd|Hd]; [by exists ps|done]).
      exists (MMethod r f ps'). split; [by apply elem_of_list_In|]. rewrite str_eqb_refl, !bool_decide_eq_true_2 by done. done.
    - unfold ck_body. rewrite Hb. cbn [andb]. destruct (returns_value r); [by rewrite He|done].
  Qed.
  Lemma verdict_no_log p level : upto 1 p -> level = info \/ level = err -> has_method (methods_of p (Some (lit "Verdict"))) (lit "ROS_" ++ to_upper level ++ lit "_STREAM") = false.
  Proof.
    intros Hu Hl. unfold methods_of. rewrite (du_verdict _ _ _ _ _ Hu) by lia. apply not_true_iff_false. rewrite has_method_iff, verdict_methods, elem_of_cons. intros [H|H].
    - destruct Hl as [-> | ->]; discriminate H.
    - apply (tk_macros _ _ Ht) in H as [_ H]. apply H. destruct Hl as [-> | ->]; [left|right; left].
  Qed.
  Lemma verdict_field p t vars : upto 1 p -> t ∈ tests -> ck_expr h p (Some (lit "Verdict")) vars (nm (fld t)) = true.
  Proof.
    intros Hu Hi. rewrite ck_nm. unfold ck_name, ck_field. rewrite (du_verdict _ _ _ _ _ Hu) by lia. rewrite verdict_fields'.
    rewrite (proj2 (mem_true (fld t) (map fld tests))) by (apply elem_of_list_fmap; by exists t). cbn [orb]. by rewrite orb_true_r.
  Qed.
  Lemma ck_dump p : upto 1 p -> ck_item h p (a_dump v tests) = true.
  Proof.
    intros Hu. pose proof (du_headers _ _ _ _ _ Hu) as Hh. eapply ck_method; [by apply (du_verdict _ _ _ _ _ Hu); lia|by apply end_not_macro| |by apply like_not_in, (low_not_macro "d")| |done|done|by apply NoDup_nil|by intros x ?%elem_of_nil| | |].
    - apply (bool_decide_eq_true_1 _); by vm_compute.
    - apply (bool_decide_eq_true_1 _); by vm_compute.
    - left. unfold a_verdict_members. right; left.
    - apply ck_block_all. constructor.
      + split; [by destruct v|]. eapply ck_log; [done|by left|by apply verdict_no_log; [|left]|by apply safeb_ok|done].
      + apply Forall_forall. intros s Hs. apply elem_of_list_fmap in Hs as (t & -> & Hi). split; [by destruct v|]. eapply ck_log; [done|by left|by apply verdict_no_log; [|left]| |].
        * apply cpp_safe_app; [by apply safeb_ok|]. apply cpp_safe_app; [by apply Ht|by apply safeb_ok].
        * cbn [forallb]. by rewrite verdict_field.
    - done.
  Qed.
  Lemma ck_setter p t : upto 1 p -> t ∈ tests -> ck_item h p (a_setter v t) = true.
  Proof.
    intros Hu Hi. pose proof (du_headers _ _ _ _ _ Hu) as Hh. destruct (tk_macros _ _ Ht t Hi) as [M1 M2].
    eapply ck_method; [by apply (du_verdict _ _ _ _ _ Hu); lia|by apply end_not_macro| |done|done|done| |by apply NoDup_singleton| | | |].
    - apply (bool_decide_eq_true_1 _); by vm_compute.
    - cbn [map forallb fst]. by rewrite (outcome_type 1).
    - cbn [map snd]. intros x ->%elem_of_list_singleton. by apply (low_not_macro "n").
    - left. unfold a_verdict_members. rewrite !elem_of_app. right; left. apply elem_of_list_fmap. by exists t.
    - cbn [map snd returns_value]. rewrite (bool_decide_eq_false_2 (void_t <> _)) by (intros H; by apply H).
      assert (Hn : ck_expr h p (Some (lit "Verdict")) [lit "new_val"] (nm (lit "new_val")) = true) by (apply ck_var; left).
      assert (Hf : ck_expr h p (Some (lit "Verdict")) [lit "new_val"] (nm (fld t)) = true) by (by apply verdict_field).
      apply ck_block_all. constructor; [|constructor; [|constructor; [|constructor]]].
      + split; [done|]. rewrite ck_if. unfold e_eq. rewrite ck_ops. cbn [forallb snd]. by rewrite Hf, Hn.
      + split; [by destruct v|]. eapply ck_log; [done|by left|by apply verdict_no_log; [|left]| |].
        * apply cpp_safe_app; [by apply safeb_ok|]. apply cpp_safe_app; [by apply Ht|by apply safeb_ok].
        * cbn [forallb]. rewrite Hn, Hf. rewrite !ck_str by (by apply safeb_ok). done.
      + split; [done|]. cbn [ck_stmt]. unfold ck_assign. cbn [nm]. fold (nm (fld t)). by rewrite Hf, Hn.
    - done.
  Qed.
End Verdict.

(** ** The states *)
Lemma upper_no_lower c : is_lower (upper_c c) = false.
Proof. destruct c as [[] [] [] [] [] [] [] []]; by vm_compute. Qed.
Lemma enum_not_macro x : enum_field x <> lit "CONVERT_H_DEFINED" -> ~ macro_like (enum_field x).
Proof.
  intros H [E|[E _]]; [done|]. assert (Hc : forall c, c ∈ (take 3 (reverse (enum_field x)) : list ascii) -> is_lower c = false).
  { intros c Hc. assert (Hc' : c ∈ (enum_field x : list ascii)). { apply elem_of_reverse. rewrite <- (take_drop 3 (reverse (enum_field x))). apply elem_of_app. by left. }
    unfold enum_field, to_upper in Hc'. apply elem_of_list_fmap in Hc' as (d & -> & _). apply upper_no_lower. }
  destruct E as [E|E]; rewrite E in Hc; [specialize (Hc "l"%char)|specialize (Hc "g"%char)]; discriminate Hc; left.
Qed.
Record states_ok (m : stm) : Prop := {
  sk_distinct : NoDup (map (fun s => enum_field (st_id s)) (m_states m));
  sk_macros : forall s, s ∈ m_states m -> enum_field (st_id s) <> lit "CONVERT_H_DEFINED";
  sk_safe : forall s, s ∈ m_states m -> cpp_safe (st_id s);
}.
Lemma ck_enum h (Hmac : forall x, x ∈ map fst (macros h) -> macro_like x) m p : states_ok m -> ck_item h p (a_enum (m_states m)) = true.
Proof.
  intros [H1 H2 _]. unfold a_enum. cbn [ck_item]. rewrite not_macro by (try done; by apply end_not_macro). rewrite (proj2 (distinct_true _) H1). cbn [andb].
  apply forallb_forall. intros x Hx. apply not_macro; [done|]. apply in_map_iff in Hx as (s & <- & Hs). apply enum_not_macro, H2. by apply elem_of_list_In.
Qed.
Lemma label_distinct {A} (f : A -> gostr) (g : A -> list stmt) (dflt : list stmt) l : NoDup (map f l) ->
  NoDup (omap label_name (map (fun x => (Some (nm2 (lit "State") (f x)), g x)) l ++ [(None, dflt)])) /\
  NoDup (omap label_name (map (fun x => (Some (nm2 (lit "State") (f x)), g x)) l)).
Proof.
  intros H. assert (E : omap label_name (map (fun x => (Some (nm2 (lit "State") (f x)), g x)) l) = map (fun x => lit "::State::" ++ f x) l).
  { apply omap_map'. intros x. cbn. by rewrite app_nil_r. }
  assert (N : NoDup (map (fun x => lit "::State::" ++ f x) l)).
  { rewrite <- (map_map f (fun x => lit "::State::" ++ x)). apply NoDup_map_2; [done|]. intros x y _ _ E'. by apply app_inv_head in E'. }
  rewrite omap_app, E. split; [|done]. apply NoDup_app2; [done|apply NoDup_singleton|]. intros x Hx ->%elem_of_list_singleton.
  apply elem_of_list_fmap in Hx as (y & E' & _). discriminate E'.
Qed.
Lemma ck_name_fun h (Hmac : forall x, x ∈ map fst (macros h) -> macro_like x) v tests m p : states_ok m -> declared_upto v tests m 2 p -> find_class p (lit "state") = None ->
  ck_item h p (in_ns [lit "state"] (a_name (m_states m))) = true.
Proof.
  intros Hs Hu Hn. unfold a_name, in_ns. cbn [app ck_item forallb]. rewrite !not_call_macro; [|done|by apply (low_not_macro "n")|apply (bool_decide_eq_true_1 _); by vm_compute|done|by apply (low_not_macro "s")|apply (bool_decide_eq_true_1 _); by vm_compute].
  unfold ck_params, ck_return. cbn [map fst snd forallb andb]. rewrite not_macro by (try done; by apply (low_not_macro "s")). destruct (du_state _ _ _ _ _ Hu ltac:(lia)) as [H1 H2].
  unfold ck_type at 2. cbn [plain_t ct_base ck_base]. rewrite H1. cbn [orb andb]. rewrite Hn. unfold ck_body.
  assert (E : returns_value (Some cstr_t) = true) by (apply bool_decide_eq_true; done). rewrite E. cbn [negb orb map snd].
  apply andb_true_iff. split; [done|]. apply andb_true_iff. split; [|done].
  cbn [ck_block declared]. apply andb_true_iff. split.
  - rewrite ck_switch. rewrite (ck_var _ _ _ [lit "s"] (lit "s")) by left. cbn [andb].
    rewrite bool_decide_eq_true_2. 2: { eapply (proj2 (label_distinct (fun s => enum_field (st_id s)) (fun s => [SReturn (Some (EStr (st_id s)))]) [] _ (sk_distinct _ Hs))). }
    apply forallb_forall. intros c Hc. apply in_map_iff in Hc as (s & <- & Hi). apply elem_of_list_In in Hi. cbn [fst snd ck_label state_q nm2]. rewrite H2 by done.
    cbn [forallb declared ck_block ck_stmt]. rewrite ck_str by (by apply Hs). done.
  - cbn [ck_stmt]. rewrite ck_str by (by apply safeb_ok). done.
Qed.

(** ** The class StateMachine *)
Definition pubs_of (v : variant) (m : stm) : list gostr := match v with VRos => map (fun a => publisher_name (agg_name a)) (tc_in (make_transitions m)) | _ => [] end.
Definition members_of (v : variant) (m : stm) : list member := a_members v (make_transitions m) (s0_of m) (m_states m).
Lemma machine_methods v m : method_names (members_of v m) ≡ₚ sm_names m.
Proof.
  unfold members_of, a_members, method_names. rewrite !omap_app. rewrite (omap_map' _ (fun a => MMethod (Some void_t) (callback_name (agg_name a)) (a_out_params a)) (fun a => callback_name (agg_name a))) by done.
  rewrite (omap_map' _ (fun s => MMethod (Some void_t) (state_entry (st_id s)) []) (fun s => state_entry (st_id s))) by done.
  assert (E : omap (fun i => match i with MMethod (Some _) x _ => Some x | _ => None end)
    match v with VRos => map (fun a => MField pub_t (fld (publisher_name (agg_name a))) None) (tc_in (make_transitions m)) | _ => [] end = []) by (destruct v; [done|by apply omap_map_none|done]).
  rewrite E. clear E. unfold sm_names, fixed_names, opt_names. cbv zeta.
  set (A := map _ (tc_out _)). set (B := map _ (m_states m)). destruct (tc_first_state_has_in _), (tc_has_in _); cbn [omap list_omap app]; solve_Permutation.
Qed.
Lemma machine_fields v m : field_names (members_of v m) = [lit "verdict_"; lit "state_"] ++ map fld (pubs_of v m).
Proof.
  unfold members_of, a_members, field_names. rewrite !omap_app.
  rewrite (omap_map_none _ (fun a => MMethod (Some void_t) (callback_name (agg_name a)) (a_out_params a))) by done.
  rewrite (omap_map_none _ (fun s => MMethod (Some void_t) (state_entry (st_id s)) [])) by done.
  assert (E : omap (fun i => match i with MField _ x _ => Some x | _ => None end)
    match v with VRos => map (fun a => MField pub_t (fld (publisher_name (agg_name a))) None) (tc_in (make_transitions m)) | _ => [] end = map fld (pubs_of v m)).
  { unfold pubs_of. destruct v; [done| |done]. rewrite map_map. by apply omap_map'. }
  rewrite E. by destruct (tc_first_state_has_in _), (tc_has_in _); cbn [omap list_omap app]; rewrite app_nil_r.
Qed.
Record machine_static (v : variant) (m : stm) : Prop := {
  ms_members : NoDup (lit "StateMachine" :: sm_names m);
  ms_pubs : NoDup (pubs_of v m);
  ms_pub_fields : forall x s, x ∈ pubs_of v m -> s ∈ m_states m -> fld x <> state_entry (st_id s);
  ms_first : exists s, s ∈ m_states m /\ st_id s = s0_of m;
}.
Lemma pubs_elem v m x : x ∈ pubs_of v m -> exists a, v = VRos /\ a ∈ tc_in (make_transitions m) /\ x = publisher_name (agg_name a).
Proof. unfold pubs_of. destruct v; try (by intros H%elem_of_nil). intros H. apply elem_of_list_fmap in H as (a & -> & Ha). by exists a. Qed.
Lemma members_distinct v m : machine_static v m -> NoDup (lit "StateMachine" :: method_names (members_of v m) ++ field_names (members_of v m)).
Proof.
  intros [H1 H2 H3 _]. rewrite (machine_methods v m), machine_fields.
  change (lit "StateMachine" :: sm_names m ++ ?r) with ((lit "StateMachine" :: sm_names m) ++ r).
  assert (L : forall x, x ∈ lit "StateMachine" :: sm_names m -> (exists s, s ∈ m_states m /\ x = state_entry (st_id s)) \/ last x <> Some "_"%char).
  { intros x Hx. unfold sm_names, fixed_names, opt_names in Hx. cbv zeta in Hx. rewrite elem_of_cons, !elem_of_app in Hx. destruct Hx as [->|[Hx|[[Hx|Hx]|[Hx|Hx]]]]; [by right| | | | |].
    - right. revert x Hx. apply (proj1 (Forall_forall (fun x : gostr => last x <> Some "_"%char) _)). repeat constructor; done.
    - destruct (tc_first_state_has_in _); [|by apply elem_of_nil in Hx]. apply elem_of_list_singleton in Hx as ->. by right.
    - destruct (tc_has_in _); [|by apply elem_of_nil in Hx]. apply elem_of_list_singleton in Hx as ->. by right.
    - apply elem_of_list_fmap in Hx as (a & -> & _). right. unfold callback_name. change (lit "Callback") with (lit "Callbac" ++ ["k"%char]). rewrite app_assoc, last_snoc. done.
    - left. apply elem_of_list_fmap in Hx as (s & -> & Hs). by exists s. }
  apply NoDup_app2; [done| |].
  - apply NoDup_app2.
    + apply (bool_decide_eq_true_1 _); by vm_compute.
    + apply NoDup_map_2; [done|]. intros x y _ _. unfold fld. by intros E%app_inv_tail.
    + intros x Hx Hy. apply elem_of_list_fmap in Hy as (y & -> & Hy). apply pubs_elem in Hy as (a & _ & _ & ->). rewrite !elem_of_cons, elem_of_nil in Hx.
      destruct Hx as [E|[E|[]]]; by apply (pub_fld_ne (agg_name a)) in E.
  - intros x Hx Hy. apply L in Hx as [(s & Hs & ->)|Hx].
    + apply elem_of_app in Hy as [Hy|Hy]; [rewrite !elem_of_cons, elem_of_nil in Hy; destruct Hy as [E|[E|[]]]; discriminate E|].
      apply elem_of_list_fmap in Hy as (y & E & Hy). by apply (H3 y s Hy Hs).
    + apply elem_of_app in Hy as [Hy|Hy]; [rewrite !elem_of_cons, elem_of_nil in Hy; destruct Hy as [-> |[-> |[]]]; by apply Hx|].
      apply elem_of_list_fmap in Hy as (y & -> & Hy). apply Hx. unfold fld. by rewrite last_snoc.
Qed.
Record header_has (h : list item) (m : stm) : Prop := {
  hh_macros : forall x, x ∈ map fst (macros h) -> macro_like x;
  hh_chan : forall a, a ∈ tc_in (make_transitions m) \/ a ∈ tc_out (make_transitions m) ->
    channel_msg_type (agg_name a) ∈ map fst (macros h) /\ channel_value_type (agg_name a) ∈ map fst (macros h) /\
    convert_to (agg_name a) ∈ functions h /\ convert_from (agg_name a) ∈ functions h;
}.
Section Class.
  Context (h : list item) (v : variant) (tests : list gostr) (m : stm) (Hm : machine_static v m) (HH : header_has h m).
  Notation upto := (declared_upto v tests m).
  Notation tc := (make_transitions m).
  Lemma upto_0 k p : upto k p -> upto 0 p.
  Proof. intros Hu. destruct Hu. split; try lia. done. Qed.
  Lemma ty_status k p : upto k p -> ck_type h p status_t = true.
  Proof. intros Hu. unfold ck_type. cbn [status_t plain_t ct_base]. eapply lib_type; [by eapply upto_0|by vm_compute|done]. Qed.
  Lemma ty_pub k p : v = VRos -> upto k p -> ck_type h p pub_t = true.
  Proof. intros Hv Hu. pose proof (hd_stream _ _ (du_headers _ _ _ _ _ Hu)) as H. rewrite Hv in H. destruct H as (H & _). unfold ck_type. cbn. by rewrite H. Qed.
  Lemma ty_timer k p : upto k p -> forallb (ck_type h p) (map fst (a_timer_params v)) = true.
  Proof. intros Hu. pose proof (hd_stream _ _ (du_headers _ _ _ _ _ Hu)) as H. destruct v; try done. destruct H as (H & _). cbn. unfold ck_type. cbn. by rewrite H. Qed.
  Lemma ty_accept k p : upto k p -> forallb (ck_type h p) (map fst (a_accept_params v)) = true.
  Proof. intros Hu. pose proof (hd_stream _ _ (du_headers _ _ _ _ _ Hu)) as H. destruct v; try done. destruct H as (_ & H & _).
    cbn [a_accept_params map fst forallb]. unfold ck_type. cbn [ct_base ck_base]. change (lib_has p [lit "std_msgs"; lit "Bool"; lit "ConstPtr"]) with (included p (lit """std_msgs/Bool.h""")).
    rewrite H. by vm_compute. Qed.
  Lemma ty_out k p a : upto k p -> a ∈ tc_out tc -> forallb (ck_type h p) (map fst (a_out_params a)) = true.
  Proof.
    intros Hu Ha. destruct (hh_chan _ _ HH a (or_intror Ha)) as (H & _). cbn [a_out_params map fst forallb]. unfold ck_type. cbn [ct_base ck_base].
    rewrite (proj2 (mem_true _ _) H), (hd_convert _ _ (du_headers _ _ _ _ _ Hu)). by rewrite orb_true_r.
  Qed.
  Lemma ty_ctor k p : upto k p -> forallb (ck_type h p) (map fst (a_ctor_params v (tc_in tc))) = true.
  Proof.
    intros Hu. pose proof (fun H => ty_pub k p H Hu) as H. unfold a_ctor_params. destruct v; try done. rewrite map_map. apply forallb_forall. intros t Ht. apply in_map_iff in Ht as (a & <- & _). by apply H.
  Qed.
  Lemma ctor_param_names : map snd (a_ctor_params v (tc_in tc)) = pubs_of v m.
  Proof. unfold a_ctor_params, pubs_of. destruct v; [done|by rewrite map_map|done]. Qed.
  Lemma params_ok p ps : forallb (ck_type h p) (map fst ps) = true -> NoDup (map snd ps) -> (forall x, x ∈ map snd ps -> ~ macro_like x) -> ck_params h p ps = true.
  Proof.
    intros H1 H2 H3. unfold ck_params. rewrite H1, (proj2 (distinct_true _) H2). cbn [andb]. apply forallb_forall. intros x Hx. apply not_macro; [apply HH|]. by apply H3, elem_of_list_In.
  Qed.
  Lemma timer_names : NoDup (map snd (a_timer_params v)) /\ (forall x, x ∈ map snd (a_timer_params v) -> ~ macro_like x).
  Proof. destruct v; (split; [apply (bool_decide_eq_true_1 _); by vm_compute|]); cbn; try (by intros x ?%elem_of_nil). intros x ->%elem_of_list_singleton. by apply (low_not_macro "e"). Qed.
  Lemma accept_names : NoDup (map snd (a_accept_params v)) /\ (forall x, x ∈ map snd (a_accept_params v) -> ~ macro_like x).
  Proof. destruct v; (split; [apply (bool_decide_eq_true_1 _); by vm_compute|]); cbn; try (by intros x ?%elem_of_nil). intros x ->%elem_of_list_singleton. by apply (low_not_macro "m"). Qed.
  Lemma ck_class p : declared_upto v tests m 3 p -> ck_item h p (a_class v tc (s0_of m) (m_states m)) = true.
  Proof.
    intros Hu. unfold a_class. cbn [ck_item]. rewrite not_macro; [|apply HH|by apply end_not_macro].
    rewrite (lib_type h v tests m p [lit "TestCase"]); [|by eapply upto_0|by vm_compute|done]. fold (members_of v m). rewrite (proj2 (distinct_true _) (members_distinct v m Hm)). unfold members_of. cbn [andb].
    assert (Hv : ck_base h p (BName [lit "Verdict"]) = true).
    { cbn [ck_base]. assert (own_type p (lit "Verdict") = true) as ->; [|done]. unfold own_type. apply existsb_exists. eexists. split; [apply elem_of_list_In, find_class_elem, (du_verdict _ _ _ _ _ Hu); lia|]. apply str_eqb_refl. }
    assert (M : forall t x ps, ~ macro_like x -> x ∉ log_macros -> ck_type h p t = true -> forallb (ck_type h p) (map fst ps) = true -> NoDup (map snd ps) -> (forall y, y ∈ map snd ps -> ~ macro_like y) ->
      ck_member h p (lit "StateMachine") (MMethod (Some t) x ps) = true).
    { intros t x ps A1 A2 A3 A4 A5 A6. cbn [ck_member]. rewrite not_call_macro; [|apply HH|done|done]. by rewrite A3, params_ok. }
    destruct timer_names as [T1 T2]. destruct accept_names as [T3 T4].
    apply forallb_forall. intros i Hi. apply elem_of_list_In in Hi. unfold a_members in Hi. rewrite !elem_of_app in Hi. destruct Hi as [Hi|[Hi|[Hi|[Hi|[Hi|[Hi|[Hi|Hi]]]]]]].
    - rewrite !elem_of_cons, elem_of_nil in Hi. destruct Hi as [->|[->|[->|[->|[]]]]].
      + done.
      + cbn [ck_member]. rewrite str_eqb_refl. cbn [andb]. apply params_ok; [by eapply ty_ctor|rewrite ctor_param_names; apply Hm|]. rewrite ctor_param_names. intros x Hx. apply pubs_elem in Hx as (a & _ & _ & ->). apply pub_not_macro.
      + apply M; [by apply (low_not_macro "g")|apply (bool_decide_eq_true_1 _); by vm_compute|done|done|by apply NoDup_nil|by intros x ?%elem_of_nil].
      + apply M; [by apply (low_not_macro "t")|apply (bool_decide_eq_true_1 _); by vm_compute|done|by eapply ty_timer|done|done].
    - destruct (tc_first_state_has_in tc); [|by apply elem_of_nil in Hi]. apply elem_of_list_singleton in Hi as ->.
      apply M; [by apply (low_not_macro "i")|apply (bool_decide_eq_true_1 _); by vm_compute|done|by eapply ty_timer|done|done].
    - destruct (tc_has_in tc); [|by apply elem_of_nil in Hi]. apply elem_of_list_singleton in Hi as ->.
      apply M; [by apply (low_not_macro "i")|apply (bool_decide_eq_true_1 _); by vm_compute|done|by eapply ty_accept|done|done].
    - apply elem_of_list_fmap in Hi as (a & -> & Ha). apply M; [apply callback_not_macro|apply callback_not_log|done|by eapply ty_out|by apply NoDup_singleton|]. intros x ->%elem_of_list_singleton. by apply (low_not_macro "m").
    - rewrite !elem_of_cons, elem_of_nil in Hi. destruct Hi as [->|[->|[->|[]]]]; [done| |].
      + cbn [ck_member]. rewrite not_macro; [|apply HH|by apply (low_not_macro "v")]. unfold ck_type. cbn [plain_t ct_base]. by rewrite Hv.
      + destruct (du_state _ _ _ _ _ Hu ltac:(lia)) as [H1 H2]. cbn [ck_member]. rewrite not_macro; [|apply HH|by apply (low_not_macro "s")]. unfold ck_type. cbn [plain_t ct_base ck_base]. rewrite H1. cbn [orb andb].
        unfold state_q. destruct (ms_first _ _ Hm) as (s & Hs & <-). unfold nm2. rewrite ck_name_eq. unfold ck_name. rewrite H2 by done. by rewrite orb_true_r.
    - destruct v eqn:Ev; try (by apply elem_of_nil in Hi). apply elem_of_list_fmap in Hi as (a & -> & Ha). cbn [ck_member]. rewrite not_macro; [|apply HH|apply fld_not_macro].
      rewrite <- Ev in Hu. rewrite (ty_pub 3) by done. done.
    - apply elem_of_list_fmap in Hi as (s & -> & Hs). apply M; [apply entry_not_macro|apply entry_not_log|done|done|by apply NoDup_nil|by intros x ?%elem_of_nil].
    - rewrite !elem_of_cons, elem_of_nil in Hi. destruct Hi as [->|[->|[]]].
      + apply M; [by apply (low_not_macro "s")|apply (bool_decide_eq_true_1 _); by vm_compute|done|done|by apply NoDup_nil|by intros x ?%elem_of_nil].
      + apply M; [by apply (low_not_macro "e")|apply (bool_decide_eq_true_1 _); by vm_compute|done| |by apply NoDup_singleton|]. { cbn [map fst forallb]. by rewrite (ty_status 3). }
        intros x ->%elem_of_list_singleton. by apply (low_not_macro "s").
  Qed.
End Class.

(** ** The methods of StateMachine *)
Section Methods.
  Context (h : list item) (v : variant) (tests : list gostr) (m : stm) (types : type_map) (P : program) (p : list citem).
  Context (Hm : machine_static v m) (HH : header_has h m) (HM : machine_ok v m types tests P) (Hu : declared_upto v tests m 4 p).
  Notation tc := (make_transitions m).
  Notation SMc := (Some (lit "StateMachine")).
  Notation ex vars := (ck_expr h p SMc vars).
  Notation st := (ck_stmt h p SMc false).
  Lemma sm_class : find_class p (lit "StateMachine") = Some (Some [lit "rtcg"; lit "TestCase"], members_of v m).
  Proof. apply (du_machine _ _ _ _ _ Hu). lia. Qed.
  Lemma sm_headers : headers v p.
  Proof. apply Hu. Qed.
  Lemma sm_methods : methods_of p SMc = members_of v m.
  Proof. unfold methods_of. by rewrite sm_class. Qed.
  Lemma sm_has x : has_method (methods_of p SMc) x = bool_decide (x ∈ sm_names m).
  Proof. rewrite sm_methods. apply eq_true_iff_eq. by rewrite has_method_iff, bool_decide_eq_true, (machine_methods v m). Qed.
  Lemma not_log_member level : level = info \/ level = err -> has_method (methods_of p SMc) (lit "ROS_" ++ to_upper level ++ lit "_STREAM") = false.
  Proof.
    intros Hl. rewrite sm_has. apply bool_decide_eq_false_2. unfold sm_names, fixed_names, opt_names. cbv zeta. rewrite !elem_of_app. intros [Hx|[[Hx|Hx]|[Hx|Hx]]].
    - rewrite !elem_of_cons, elem_of_nil in Hx. destruct Hl as [-> | ->]; destruct Hx as [Hx|[Hx|[Hx|[Hx|[]]]]]; discriminate Hx.
    - destruct (tc_first_state_has_in _); [|by apply elem_of_nil in Hx]. apply elem_of_list_singleton in Hx. destruct Hl as [-> | ->]; discriminate Hx.
    - destruct (tc_has_in _); [|by apply elem_of_nil in Hx]. apply elem_of_list_singleton in Hx. destruct Hl as [-> | ->]; discriminate Hx.
    - apply elem_of_list_fmap in Hx as (a & E & _). destruct Hl as [-> | ->]; not_callback E.
    - apply elem_of_list_fmap in Hx as (s & Hx & _). destruct Hl as [-> | ->]; discriminate Hx.
  Qed.
  Lemma log_ok level s ps brk ret vars : level = info \/ level = err -> cpp_safe s -> forallb (ex vars) ps = true -> ck_stmt h p SMc ret brk vars (a_log v level (EStr s) ps) = true.
  Proof. intros Hl Hs Hps. eapply ck_log; [apply sm_headers|done|by apply not_log_member|done|done]. Qed.
  Lemma log_plain level e ps : declared (a_log v level e ps) = None.
  Proof. by destruct v. Qed.
  Lemma own_call f n : method_n (members_of v m) f n = true -> ck_fun h p SMc [f] n = true.
  Proof.
    intros H. unfold ck_fun. assert (has_method (methods_of p SMc) f = true) as ->; [|by rewrite sm_methods].
    rewrite sm_methods. apply has_method_elem. apply method_n_elem in H as (t & ps & H & _). by exists t, ps.
  Qed.
  Lemma has_end : MMethod (Some void_t) (lit "end") [(status_t, lit "status")] ∈ members_of v m.
  Proof. unfold members_of, a_members. rewrite !elem_of_app. do 7 right. right. left. Qed.
  Lemma has_stateName : MMethod (Some cstr_t) (lit "stateName") [] ∈ members_of v m.
  Proof. unfold members_of, a_members. rewrite !elem_of_app. do 7 right. left. Qed.
  Lemma has_entry s : s ∈ m_states m -> MMethod (Some void_t) (state_entry (st_id s)) [] ∈ members_of v m.
  Proof. intros Hs. unfold members_of, a_members. rewrite !elem_of_app. do 6 right. left. apply elem_of_list_fmap. by exists s. Qed.
  Lemma has_callback a : a ∈ tc_out tc -> MMethod (Some void_t) (callback_name (agg_name a)) (a_out_params a) ∈ members_of v m.
  Proof. intros Ha. unfold members_of, a_members. rewrite !elem_of_app. do 3 right. left. apply elem_of_list_fmap. by exists a. Qed.
  Lemma field_ok x vars : x ∈ [lit "verdict_"; lit "state_"; lit "status_"] \/ (exists y, y ∈ pubs_of v m /\ x = fld y) -> ex vars (nm x) = true.
  Proof.
    intros H. rewrite ck_nm. unfold ck_name, ck_field. rewrite sm_class, machine_fields. apply orb_true_iff. left. apply orb_true_iff. right. apply orb_true_iff. rewrite !mem_true.
    destruct H as [H|(y & Hy & ->)].
    - rewrite !elem_of_cons, elem_of_nil in H. destruct H as [->|[->|[->|[]]]]; [left; left|left; right; left|right]. cbn. left.
    - left. rewrite elem_of_app. right. apply elem_of_list_fmap. by exists y.
  Qed.
  Lemma f_status vars : ex vars (nm (lit "status_")) = true. Proof. apply field_ok. left. right; right; left. Qed.
  Lemma f_state vars : ex vars (nm (lit "state_")) = true. Proof. apply field_ok. left. right; left. Qed.
  Lemma f_verdict vars : ex vars (nm (lit "verdict_")) = true. Proof. apply field_ok. left. left. Qed.
  Lemma end_ok' brk vars s : st brk vars (a_end (status_text s)) = true.
  Proof.
    unfold a_end, ecall. rewrite ck_expr_stmt, ck_call. cbn [length]. rewrite own_call. 2: { apply method_n_elem. eexists _, _. split; [apply has_end|done]. }
    cbn [forallb andb]. by rewrite (ck_status _ _ v sm_headers).
  Qed.
  Lemma call_entry brk vars f : (exists s, s ∈ m_states m /\ f = state_entry (st_id s)) -> st brk vars (ecall [f] []) = true.
  Proof.
    intros (s & Hs & ->). unfold ecall. rewrite ck_expr_stmt, ck_call. cbn [length forallb]. rewrite own_call; [done|]. apply method_n_elem. eexists _, _. split; [by apply has_entry|done].
  Qed.
  Lemma call_stateName vars : ex vars (MainAst.call [lit "stateName"] []) = true.
  Proof. rewrite ck_call. cbn [length forallb]. rewrite own_call; [done|]. apply method_n_elem. eexists _, _. split; [apply has_stateName|done]. Qed.
  Lemma entry_of f : f ∈ used_entries P -> exists s, s ∈ m_states m /\ f = state_entry (st_id s).
  Proof.
    intros Hf. apply (wd_calls _ (mo_decl _ _ _ _ _ HM)) in Hf. destruct (prog_eq v m tests types P HM) as (acc & _ & ->). cbn [p_entries] in Hf. rewrite map_map in Hf.
    apply elem_of_list_fmap in Hf as (s & -> & Hs). by exists s.
  Qed.
  Lemma label_of f : f ∈ used_states P -> own_enumerator p [lit "State"; f] = true.
  Proof.
    intros Hf. apply (wd_states _ (mo_decl _ _ _ _ _ HM)) in Hf. destruct (prog_eq v m tests types P HM) as (acc & _ & ->). cbn [p_enum] in Hf.
    apply elem_of_list_fmap in Hf as (s & -> & Hs). apply (du_state _ _ _ _ _ Hu); [lia|done].
  Qed.
  Lemma conv_ok vars f e : (forall g, f <> "R"%char :: g) -> f ∉ sm_names m -> f ∈ functions h -> ex vars e = true -> ex vars (MainAst.call [f] [e]) = true.
  Proof.
    intros H1 H2 H3 He. rewrite ck_call. cbn [length forallb]. rewrite He. unfold ck_fun. rewrite sm_has, bool_decide_eq_false_2 by done.
    assert (log_macro [f] = false) as ->. { unfold log_macro, log_macros. cbn [existsb]. rewrite !str_eqb_ne; [done|apply H1|apply H1]. }
    rewrite (proj2 (mem_true _ _) H3), (hd_convert _ _ sm_headers). done.
  Qed.
  Lemma running_ok vars e : ex vars e = true -> ex vars (is_running_of e) = true.
  Proof.
    intros He. unfold is_running_of. rewrite ck_call. cbn [length forallb]. rewrite He. cbn [andb]. rewrite andb_true_r. unfold ck_fun. apply orb_true_iff. left.
    change (lib_has p [lit "rtcg"; lit "status"; lit "isRunning"]) with (included p (lit """rtcg.h""")). rewrite (hd_rtcg _ _ sm_headers). by vm_compute.
  Qed.
  Lemma eq_ok vars a b : ex vars a = true -> ex vars b = true -> ex vars (e_eq a b) = true.
  Proof. intros Ha Hb. unfold e_eq. rewrite ck_ops. cbn [forallb snd]. by rewrite Ha, Hb. Qed.
  Lemma ne_ok vars a b : ex vars a = true -> ex vars b = true -> ex vars (e_ne a b) = true.
  Proof. intros Ha Hb. unfold e_ne. rewrite ck_ops. cbn [forallb snd]. by rewrite Ha, Hb. Qed.
  Lemma set_status_ok brk vars s : st brk vars (set_status (status_text s)) = true.
  Proof. unfold set_status. cbn [ck_stmt]. unfold ck_assign, nm. change (EName [lit "status_"]) with (nm (lit "status_")). by rewrite f_status, (ck_status _ _ v sm_headers). Qed.
  Lemma assign_ok brk vars x e : ex vars (nm x) = true -> ex vars e = true -> st brk vars (SAssign (nm x) e) = true.
  Proof. intros Hx He. cbn [ck_stmt]. unfold ck_assign. cbn [nm]. change (EName [x]) with (nm x). by rewrite Hx, He. Qed.

  Lemma sm_method r f ps b : ~ macro_like f -> f ∉ log_macros ->
    ck_return h p r = true -> forallb (ck_type h p) (map fst ps) = true -> NoDup (map snd ps) -> (forall x, x ∈ map snd ps -> ~ macro_like x) ->
    MMethod r f ps ∈ members_of v m \/ (exists ps', map fst ps' = map fst ps /\ MMethod r f ps' ∈ members_of v m) ->
    ck_block h p SMc (returns_value r) false (map snd ps) (map snd ps) b = true -> (returns_value r = true -> ends_with_return b = true) ->
    ck_item h p (CFun r (SMq f) ps b) = true.
  Proof.
    intros H1 H2 H3 H4 H5 H6 H7 H8 H9. eapply ck_method; [apply HH|apply sm_class|by apply end_not_macro| |by eapply like_not_in; [apply HH|]|done|done|done|done|done|done|done|done].
    apply (bool_decide_eq_true_1 _); by vm_compute.
  Qed.
  Lemma void_false : returns_value (Some void_t) = false.
  Proof. apply bool_decide_eq_false_2. intros H. by apply H. Qed.
  Lemma ck_ctor : ck_item h p (a_ctor v tc (s0_of m)) = true.
  Proof.
    apply sm_method; [by apply end_not_macro|apply (bool_decide_eq_true_1 _); by vm_compute|done|by eapply ty_ctor|rewrite (ctor_param_names v m Hm); apply Hm| | | |done].
    - rewrite (ctor_param_names v m Hm). intros x Hx. apply pubs_elem in Hx as (a & _ & _ & ->). apply pub_not_macro.
    - left. unfold members_of, a_members. right; left.
    - rewrite (ctor_param_names v m Hm). apply ck_block_all. apply Forall_app. split.
      + destruct (tc_first_state_has_in tc); (constructor; [|constructor]); (split; [done|]).
        * apply (set_status_ok _ _ WAIT_START).
        * apply call_entry. destruct (ms_first _ _ Hm) as (s & Hs & <-). by exists s.
      + assert (G : forall a, v = VRos -> a ∈ tc_in tc -> st false (pubs_of v m) (SAssign (nm (fld (publisher_name (agg_name a)))) (nm (publisher_name (agg_name a)))) = true).
        { intros a Hv Ha. assert (Hp : publisher_name (agg_name a) ∈ pubs_of v m) by (rewrite Hv; apply elem_of_list_fmap; by exists a).
          apply assign_ok; [apply field_ok; right; by eexists|by apply ck_var]. }
        destruct v; [constructor| |constructor]. apply Forall_forall. intros s Hs. apply elem_of_list_fmap in Hs as (a & -> & Ha). split; [done|]. by apply G.
  Qed.
  Lemma ck_getVerdict : ck_item h p a_getVerdict = true.
  Proof.
    assert (E : returns_value (Some verdict_ref) = true) by (apply bool_decide_eq_true; done).
    apply sm_method; [by apply (low_not_macro "g")|apply (bool_decide_eq_true_1 _); by vm_compute| |done|by apply NoDup_nil|by intros x ?%elem_of_nil| | |done].
    - cbn [ck_return]. unfold ck_type. cbn [ct_base verdict_ref ck_base]. assert (own_type p (lit "Verdict") = true) as ->; [|done]. unfold own_type. apply existsb_exists. eexists.
      split; [apply elem_of_list_In, find_class_elem, (du_verdict _ _ _ _ _ Hu); lia|]. apply str_eqb_refl.
    - left. unfold members_of, a_members. right; right; left.
    - rewrite E. apply ck_block_all. constructor; [|constructor]. split; [done|]. cbn [ck_stmt]. by rewrite f_verdict.
  Qed.
  Lemma ck_stateName : ck_item h p a_stateName = true.
  Proof.
    assert (E : returns_value (Some cstr_t) = true) by (apply bool_decide_eq_true; done).
    apply sm_method; [by apply (low_not_macro "s")|apply (bool_decide_eq_true_1 _); by vm_compute|done|done|by apply NoDup_nil|by intros x ?%elem_of_nil|left; apply has_stateName| |done].
    rewrite E. apply ck_block_all. constructor; [|constructor]. split; [done|]. cbn [ck_stmt]. rewrite ck_call. cbn [length forallb]. rewrite f_state. cbn [andb]. rewrite andb_true_r.
    unfold ck_fun. apply orb_true_iff. right. apply (du_name _ _ _ _ _ Hu). lia.
  Qed.
  Lemma ck_end : ck_item h p (a_end_fun v) = true.
  Proof.
    apply sm_method; [by apply (low_not_macro "e")|apply (bool_decide_eq_true_1 _); by vm_compute|done|cbn [map fst forallb]; by erewrite ty_status|by apply NoDup_singleton| | | |by rewrite void_false].
    - intros x ->%elem_of_list_singleton. by apply (low_not_macro "s").
    - right. eexists. split; [|apply has_end]. done.
    - rewrite void_false. cbn [map snd]. assert (Hs : ex [lit "s"] (nm (lit "s")) = true) by (apply ck_var; left).
      assert (Hd : forall x, safeb x = true -> ex [lit "s"] (EStr x) = true) by (intros x Hx; by apply ck_str, safeb_ok).
      apply ck_block_all. apply Forall_app. split; [constructor; [|constructor; [|constructor; [|constructor]]]|].
      + split; [done|]. rewrite ck_if, ck_block_eq. assert (E : ex [lit "s"] (EUn UNot running_status) = true) by (apply running_ok, f_status). rewrite E. cbn [andb].
        rewrite andb_true_r. apply ck_block_all. constructor; [|by constructor].
        split; [apply log_plain|]. apply log_ok; [by right|by apply safeb_ok|]. cbn [forallb]. by rewrite f_status, Hs, !Hd.
      + split; [done|]. rewrite ck_if, ck_block_eq. rewrite running_ok by done. cbn [andb]. rewrite andb_true_r. apply ck_block_all. constructor; [|constructor; [|constructor]].
        * split; [apply log_plain|]. apply log_ok; [by right|by apply safeb_ok|]. cbn [forallb]. by rewrite Hs, !Hd.
        * split; [done|]. apply assign_ok; [done|]. apply (ck_status _ _ v sm_headers _ _ BUG).
      + split; [done|]. apply assign_ok; [apply f_status|done].
      + pose proof (hd_stream _ _ sm_headers) as Hst. destruct v; [constructor| |constructor]. constructor; [|constructor]. split; [done|]. unfold ecall. rewrite ck_expr_stmt, ck_call.
        cbn [length forallb]. rewrite andb_true_r. unfold ck_fun. apply orb_true_iff. left. change (lib_has p [lit "ros"; lit "shutdown"]) with (ros_included p). destruct Hst as [-> _]. by vm_compute.
  Qed.
  Lemma ck_timeout : ck_item h p (a_timeout v) = true.
  Proof.
    destruct (timer_names v m Hm) as [T1 T2].
    apply sm_method; [by apply (low_not_macro "t")|apply (bool_decide_eq_true_1 _); by vm_compute|done|by eapply ty_timer|done|done| | |by rewrite void_false].
    - left. unfold members_of, a_members. right; right; right; left.
    - rewrite void_false. set (vars := map snd (a_timer_params v)). apply ck_block_all. constructor; [|constructor; [|constructor; [|constructor]]].
      + split; [done|]. rewrite ck_if. assert (E : ex vars (EUn UNot running_status) = true) by (apply running_ok, f_status). by rewrite E.
      + split; [apply log_plain|]. apply log_ok; [by left|by apply safeb_ok|done].
      + split; [done|]. apply (end_ok' _ _ TIMEOUT).
  Qed.
  Lemma ck_delay : tc_first_state_has_in tc = true -> ck_item h p (a_delay v (s0_of m)) = true.
  Proof.
    intros Hf. destruct (timer_names v m Hm) as [T1 T2].
    apply sm_method; [by apply (low_not_macro "i")|apply (bool_decide_eq_true_1 _); by vm_compute|done|by eapply ty_timer|done|done| | |by rewrite void_false].
    - left. unfold members_of, a_members. rewrite Hf. rewrite !elem_of_app. right; left. left.
    - rewrite void_false. set (vars := map snd (a_timer_params v)). apply ck_block_all. constructor; [|constructor; [|constructor; [|constructor]]].
      + split; [done|]. rewrite ck_if. rewrite ne_ok; [done|apply f_status|apply (ck_status _ _ v sm_headers _ _ WAIT_START)].
      + split; [apply log_plain|]. apply log_ok; [by left|by apply safeb_ok|done].
      + split; [done|]. apply call_entry. destruct (ms_first _ _ Hm) as (s & Hs & <-). by exists s.
  Qed.
  (** *** Switches over the state *)
  Lemma switch_ok brk vars {A} (f : A -> gostr) (g : A -> list stmt) (dflt : list stmt) l : NoDup (map f l) -> (forall x, x ∈ l -> f x ∈ used_states P) ->
    (forall x, x ∈ l -> Forall (fun s => declared s = None /\ st true vars s = true) (g x)) -> Forall (fun s => declared s = None /\ st true vars s = true) dflt ->
    st brk vars (SSwitch (nm (lit "state_")) (map (fun x => (Some (nm2 (lit "State") (f x)), g x)) l ++ [(None, dflt)])) = true.
  Proof.
    intros Hnd Hu' Hg Hd. rewrite ck_switch, f_state. rewrite bool_decide_eq_true_2 by (by apply label_distinct). cbn [andb].
    assert (B : forall b, Forall (fun s => declared s = None /\ st true vars s = true) b -> forallb (fun s => negb (bool_decide (is_Some (declared s)))) b && ck_block h p SMc false true [] vars b = true).
    { intros b Hb. rewrite ck_block_all by done. rewrite andb_true_r. apply forallb_forall. intros s Hs. apply elem_of_list_In in Hs. destruct (proj1 (Forall_forall _ _) Hb s Hs) as [-> _].
      apply negb_true_iff, bool_decide_eq_false_2. by intros [? [=]]. }
    apply forallb_forall. intros c Hc. apply elem_of_list_In in Hc. rewrite <- andb_assoc. apply elem_of_app in Hc as [Hc|Hc].
    - apply elem_of_list_fmap in Hc as (x & -> & Hx). cbn [fst snd]. rewrite B by (by apply Hg). unfold nm2. cbn [ck_label]. rewrite label_of; [done|]. by apply Hu'.
    - apply elem_of_list_singleton in Hc as ->. cbn [fst snd]. rewrite B by done. done.
  Qed.
  Lemma ck_accept : tc_has_in tc = true -> ck_item h p (a_accept v tc) = true.
  Proof.
    intros Hin. destruct (accept_names v m Hm) as [T1 T2]. destruct (prog_eq v m tests types P HM) as (acc & Hacc & EP). destruct (gen_accept_map _ _ Hacc) as [Ecs Hne].
    assert (Epa : p_accept P = Some acc) by (rewrite EP; cbn [p_accept]; by rewrite Hin).
    apply sm_method; [by apply (low_not_macro "i")|apply (bool_decide_eq_true_1 _); by vm_compute|done|by eapply ty_accept|done|done| | |by rewrite void_false].
    - left. unfold members_of, a_members. rewrite Hin. rewrite !elem_of_app. right; right; left. left.
    - rewrite void_false. set (vars := map snd (a_accept_params v)). apply ck_block_all. constructor; [|constructor]. split; [done|].
      rewrite accept_cases_map by done. set (l := range_map (tc_in_merged tc)) in *.
      apply (switch_ok false vars (fun sts => enum_field sts.1) (fun sts => [a_log v info (EStr (lit "Accepted input on state " ++ sts.1 ++ lit " as expected.")) []; ecall [state_entry (hd_next sts.2)] []; SBreak])).
      + pose proof (wd_accept_cases _ (mo_decl _ _ _ _ _ HM) _ Epa) as N. rewrite Ecs in N. assert (E : (map (fun sts : gostr * list transition => (enum_field sts.1, state_entry (hd_next sts.2))) l).*1 = map (fun sts => enum_field sts.1) l) by apply map_map. rewrite E in N. done.
      + intros sts Hs. unfold used_states. rewrite Epa. right. rewrite !elem_of_app. right. left. cbn. rewrite Ecs. apply elem_of_list_fmap. exists (enum_field sts.1, state_entry (hd_next sts.2)). split; [done|]. apply elem_of_list_fmap. by exists sts.
      + intros sts Hs. constructor; [|constructor; [|constructor; [|constructor]]]; [| |done].
        * split; [apply log_plain|]. apply log_ok; [by left| |done]. apply cpp_safe_app; [by apply safeb_ok|]. apply cpp_safe_app; [|by apply safeb_ok]. apply (mo_merged _ _ _ _ _ HM). apply elem_of_list_fmap. by exists sts.
        * split; [done|]. apply call_entry, entry_of. unfold used_entries. rewrite Epa. right. rewrite !elem_of_app. left. cbn. rewrite Ecs. apply elem_of_list_fmap. exists (enum_field sts.1, state_entry (hd_next sts.2)). split; [done|]. apply elem_of_list_fmap. by exists sts.
      + constructor; [|constructor; [|constructor]].
        * split; [apply log_plain|]. apply log_ok; [by right|by apply safeb_ok|]. cbn [forallb]. by rewrite call_stateName.
        * split; [done|]. apply (end_ok' _ _ BUG).
  Qed.
  Lemma lit_ok vars x y : cpp_lit (cpp_value x) = Some y -> ex vars (a_lit x) = true.
  Proof.
    destruct x as [[z|s]|].
    - unfold cpp_value. assert (is_enum_ty (value_type (Some (IntV z))) = false) as -> by (cbn; by destruct (0 <=? z)%Z). cbn [a_lit].
      change (value_string_value (Some (IntV z))) with (format_int z). unfold format_int. destruct (z <? 0)%Z eqn:E.
      + cbn [cpp_lit]. change (Ascii.eqb "-" (byte 34)) with false. change (Ascii.eqb "-" "-") with true. cbn iota.
        destruct (nat_lit (format_N (Z.abs_N z))) as [k|] eqn:Ek; [|done]. intros _. cbn [ck_expr]. unfold num_value. rewrite Ek. reflexivity.
      + destruct (format_N_spec (Z.to_N z)) as (H1 & _). destruct (format_N (Z.to_N z)) as [|c r] eqn:Ef; [done|].
        destruct (digit_not_special _ _ _ Ef) as [E1 E2]. unfold cpp_lit. rewrite E1, E2. destruct (nat_lit (c :: r)) as [k|] eqn:Ek; [|done]. intros _.
        cbn [ck_expr]. unfold num_value. rewrite Ek. reflexivity.
    - intros H. cbn [a_lit ck_expr]. change (cpp_lit (cpp_value (Some (EnumV s)))) with (EnumV <$> str_body (s ++ lit """")) in H. unfold str_value.
      change [byte 34] with (lit """"). destruct (str_body (s ++ lit """")) as [b|]; [|done]. reflexivity.
    - reflexivity.
  Qed.
  Lemma guard_ok vars y : lit "value" ∈ vars -> (exists x, cpp_lit (cpp_value y) = Some x) -> ex vars (a_guard y) = true.
  Proof.
    intros Hv [x Hx]. unfold a_guard. destruct (is_enum_ty (value_type y)).
    - apply eq_ok; [|done]. rewrite ck_mcall. cbn [length forallb]. rewrite (lit_ok vars y x Hx). fold (nm (lit "value")).
      change (ck_name p SMc vars [lit "value"]) with (ex vars (nm (lit "value"))). rewrite ck_var by done. unfold any_method. cbn [andb]. rewrite andb_true_r. apply orb_true_iff. right. by vm_compute.
    - apply eq_ok; [by apply ck_var|]. by eapply lit_ok.
  Qed.
  Lemma chain_ok vars ts last : lit "value" ∈ vars -> (forall t, t ∈ ts -> (exists x, cpp_lit (cpp_value (tr_value t)) = Some x) /\ state_entry (tr_next t) ∈ used_entries P) ->
    st true vars last = true -> st true vars (a_chain ts last) = true.
  Proof.
    intros Hv Ht Hl. induction ts as [|t ts IH]; [done|]. unfold a_chain. cbn [foldr]. fold (a_chain ts last). destruct (Ht t ltac:(left)) as [H1 H2].
    rewrite ck_if, guard_ok by done. rewrite call_entry by (by apply entry_of). cbn [andb]. apply IH. intros t' H'. apply Ht. by right.
  Qed.
  Lemma ck_out a : a ∈ tc_out tc -> ck_item h p (a_out v a) = true.
  Proof.
    intros Ha. destruct (mo_outs _ _ _ _ _ HM a Ha) as [Sa Ss]. assert (Sc : cpp_safe (channel_string (ag_chan a))) by (by apply channel_string_safe).
    assert (Hgo : gen_out a ∈ p_outs P) by (destruct (prog_eq v m tests types P HM) as (acc & _ & ->); apply elem_of_list_fmap; by exists a).
    apply sm_method; [by apply callback_not_macro|by apply callback_not_log|done|by eapply ty_out|by apply NoDup_singleton| |left; by apply has_callback| |by rewrite void_false].
    { intros x ->%elem_of_list_singleton. by apply (low_not_macro "m"). }
    rewrite void_false. cbn [map snd a_out_params]. cbn [ck_block declared]. apply andb_true_iff. split.
    - cbn [ck_stmt]. rewrite not_macro; [|apply HH|by apply (low_not_macro "v")]. cbn [andb]. apply conv_ok; [done|apply (mo_convs _ _ _ _ _ HM a); by right|apply (hh_chan _ _ HH a); by right|]. apply ck_var. left.
    - apply andb_true_iff. split; [by vm_compute|]. set (vars := [lit "value"; lit "msg"]). apply andb_true_iff. split; [|done].
      assert (Hvv : ex vars (nm (lit "value")) = true) by (apply ck_var; left).
      apply (switch_ok false vars (fun sts => enum_field sts.1) (fun sts => [a_chain sts.2 (SBlock [a_log v info (EStr (lit "Unexpected value ")) [nm (lit "value"); EStr (lit " for " ++ channel_string (ag_chan a) ++ lit " in state " ++ sts.1 ++ lit ".")];
                        a_end (lit "OFF_SCRIPT")]); SBreak])).
      + pose proof (wd_out_cases _ (mo_decl _ _ _ _ _ HM) _ Hgo) as N. unfold gen_out in N. cbn [oc_cases] in N.
        rewrite <- list_fmap_compose in N. exact N.
      + intros sts Hs. unfold used_states. right. rewrite !elem_of_app. right. right. apply elem_of_list_In, in_concat. exists ((oc_cases (gen_out a)).*1).
        split; [apply in_map_iff; exists (gen_out a); split; [done|by apply elem_of_list_In]|]. apply elem_of_list_In. unfold gen_out. cbn [oc_cases]. rewrite <- list_fmap_compose. apply elem_of_list_fmap. by exists sts.
      + intros sts Hs. assert (Hst : sts.1 ∈ (range_map (ag_states a)).*1) by (apply elem_of_list_fmap; by exists sts).
        assert (Hc : (enum_field sts.1, map (fun t => (gen_guard (tr_value t), state_entry (tr_next t))) sts.2) ∈ oc_cases (gen_out a)).
        { unfold gen_out. cbn [oc_cases]. apply elem_of_list_fmap. by exists sts. }
        constructor; [|by constructor]. split.
        { destruct (sts.2) as [|t ts]; done. }
        apply chain_ok; [left| |].
        * intros t Ht. assert (Hg : (gen_guard (tr_value t), state_entry (tr_next t)) ∈ map (fun t => (gen_guard (tr_value t), state_entry (tr_next t))) sts.2) by (apply elem_of_list_fmap; by exists t). split.
          -- destruct (proj1 (mo_lits _ _ _ _ _ HM) _ _ _ _ Hgo Hc Hg) as (ty & _ & Hl). unfold gen_guard in Hl. unfold cpp_value. destruct (is_enum_ty (value_type (tr_value t))); destruct Hl as (_ & x & Hl); eauto.
          -- unfold used_entries. right. rewrite elem_of_app. right. apply elem_of_list_In, in_concat. eexists. split; [apply in_map_iff; exists (gen_out a); split; [reflexivity|by apply elem_of_list_In]|].
             apply in_concat. eexists. split; [apply in_map_iff; eexists; split; [reflexivity|apply elem_of_list_In, Hc]|]. apply in_map_iff. eexists. split; [|apply elem_of_list_In, Hg]. done.
        * rewrite ck_block_eq. apply ck_block_all. constructor; [|constructor; [|constructor]].
          -- split; [apply log_plain|]. apply log_ok; [by left|by apply safeb_ok|]. cbn [forallb]. rewrite Hvv. rewrite ck_str; [done|]. repeat apply cpp_safe_app; try done; try (by apply safeb_ok). by apply Ss.
          -- split; [done|]. apply (end_ok' _ _ OFF_SCRIPT).
      + constructor; [|constructor; [|constructor]].
        * split; [apply log_plain|]. apply log_ok; [by left|by apply safeb_ok|]. cbn [forallb]. rewrite Hvv, call_stateName. rewrite !ck_str; [done|by apply safeb_ok|]. repeat apply cpp_safe_app; try done; by apply safeb_ok.
        * split; [done|]. apply (end_ok' _ _ OFF_SCRIPT).
  Qed.
  (** *** Entry functions *)
  Lemma two_ok brk vars id a b : cpp_safe id -> cpp_safe a -> cpp_safe b -> st brk vars (a_two v id a b) = true.
  Proof.
    intros H1 H2 H3. unfold a_two. apply log_ok; [by left| |].
    - apply cpp_safe_app; [by apply safeb_ok|by apply cpp_safe_app].
    - cbn [forallb]. by rewrite ck_str.
  Qed.
  Lemma input_ok brk vars c t x : cpp_safe (ch_name c) -> (exists a, a ∈ tc_in tc /\ agg_name a = ch_name c) -> cpp_lit (cpp_value (tr_value t)) = Some x -> st brk vars (a_input v c t) = true.
  Proof.
    intros Hs (a & Ha & Ea) Hx. assert (G : ex vars (MainAst.call [convert_to (ch_name c)] [a_lit (tr_value t)]) = true).
    { rewrite <- Ea. apply conv_ok; [done|apply (mo_convs _ _ _ _ _ HM a); by left|apply (hh_chan _ _ HH a); by left|]. by eapply lit_ok. }
    assert (L : st brk vars (a_log v info (EStr (lit "(Actual value received by SUT on " ++ ch_name c ++ lit " after conversion: ")) [MainAst.call [convert_to (ch_name c)] [a_lit (tr_value t)]; EStr (lit ")")]) = true).
    { apply log_ok; [by left| |].
      - apply cpp_safe_app; [by apply safeb_ok|]. apply cpp_safe_app; [done|by apply safeb_ok].
      - cbn [forallb]. rewrite G, ck_str by (by apply safeb_ok). done. }
    assert (R : v = VRos -> st brk vars (SExpr (mcall (fld (publisher_name (ch_name c))) (lit "publish") [MainAst.call [convert_to (ch_name c)] [a_lit (tr_value t)]])) = true).
    { intros Hv. rewrite ck_expr_stmt, ck_mcall. cbn [length forallb]. rewrite G. change (ck_name p SMc vars [?x]) with (ex vars (nm x)). rewrite field_ok.
      - unfold any_method. cbn [andb]. rewrite andb_true_r. apply orb_true_iff. right. by vm_compute.
      - right. exists (publisher_name (ch_name c)). split; [|done]. rewrite Hv. rewrite <- Ea. apply elem_of_list_fmap. by exists a. }
    unfold a_input. destruct v; [exact L|by apply R|exact L].
  Qed.
  Lemma setter_ok' brk vars t o : t ∈ tests -> o ∈ [lit "UNSET"; lit "INC"; lit "PASS"; lit "FAIL"] -> st brk vars (SExpr (mcall (lit "verdict_") t [outcome_q o])) = true.
  Proof.
    intros Ht Ho. rewrite ck_expr_stmt, ck_mcall. cbn [length forallb]. change (ck_name p SMc vars [?x]) with (ex vars (nm x)). rewrite f_verdict.
    rewrite (any_method_in p (lit "Verdict") None (a_verdict_members tests)); [|apply (du_verdict _ _ _ _ _ Hu); lia|].
    - unfold outcome_q. rewrite (ck_prelude _ _ v); [done|apply sm_headers| |done]. rewrite !elem_of_cons, elem_of_nil in Ho. destruct Ho as [->|[->|[->|[->|[]]]]]; by vm_compute.
    - apply method_n_elem. exists void_t, [(outcome_t, lit "new_val")]. split; [|done]. unfold a_verdict_members. rewrite !elem_of_app. right; left. apply elem_of_list_fmap. by exists t.
  Qed.
  Lemma act_ok s : s ∈ m_states m -> Forall (fun x => declared x = None /\ st false [] x = true) (a_act v s).
  Proof.
    intros Hs. unfold a_act. destruct (verdict_is OFail (st_verdict s)) eqn:Ef.
    { constructor; [|constructor]. split; [done|]. apply (end_ok' _ _ FAIL). }
    destruct (state_has_in s) eqn:Eh.
    - constructor; [split; [done|apply (set_status_ok _ _ WAIT_IN)]|]. destruct (state_in s) as [[c t]|] eqn:Ei; [|constructor].
      destruct (state_in_elem _ _ _ Ei) as (ts & Hts & Hch & Ht). destruct (mo_trans _ _ _ _ _ HM s ts t Hs Hts Ht) as (S1 & S2 & S3). rewrite Hch in S1.
      constructor; [|constructor; [|constructor]].
      + split; [apply log_plain|]. apply two_ok; [by apply (mo_ids _ _ _ _ _ HM)| |]; repeat apply cpp_safe_app; try done; by apply safeb_ok.
      + split; [unfold a_input; destruct v; try apply log_plain; done|].
        assert (He : gen_entry s ∈ p_entries P) by (destruct (prog_eq v m tests types P HM) as (acc & _ & ->); cbn [p_entries]; apply elem_of_list_fmap; by exists s).
        destruct (proj2 (mo_lits _ _ _ _ _ HM) (gen_entry s) (ch_name c) (cpp_value (tr_value t)) He) as (ty & x & H).
        { unfold gen_entry. cbn [en_act]. by rewrite Ef, Eh, Ei. }
        eapply input_ok; [done|by apply (mo_pubs _ _ _ _ _ HM s c t)|]. apply H.
    - constructor; [split; [done|apply (set_status_ok _ _ WAIT_OUT)]|]. apply Forall_forall. intros x Hx. apply elem_of_list_In, in_concat in Hx as (l & Hl & Hx). apply in_map_iff in Hl as (ts & <- & Hts).
      apply in_map_iff in Hx as (t & <- & Ht). apply elem_of_list_In in Hts, Ht. destruct (mo_trans _ _ _ _ _ HM s ts t Hs Hts Ht) as (S1 & S2 & S3). split; [apply log_plain|].
      apply two_ok; [by apply (mo_ids _ _ _ _ _ HM)| |]; repeat apply cpp_safe_app; try done; by apply safeb_ok.
  Qed.
  Lemma ck_entry s : s ∈ m_states m -> ck_item h p (a_entry v s) = true.
  Proof.
    intros Hs. assert (He : gen_entry s ∈ p_entries P) by (destruct (prog_eq v m tests types P HM) as (acc & _ & ->); cbn [p_entries]; apply elem_of_list_fmap; by exists s).
    apply sm_method; [by apply entry_not_macro|by apply entry_not_log|done|done|by apply NoDup_nil|by intros x ?%elem_of_nil|left; by apply has_entry| |by rewrite void_false].
    rewrite void_false. cbn [map]. apply ck_block_all. repeat apply Forall_app_2.
    - constructor; [|constructor; [|constructor]].
      + split; [done|]. apply assign_ok; [apply f_state|]. unfold state_q, nm2. rewrite ck_name_eq. unfold ck_name. rewrite (proj2 (du_state _ _ _ _ _ Hu ltac:(lia)) s Hs). by rewrite orb_true_r.
      + split; [apply log_plain|]. apply log_ok; [by left| |done]. apply cpp_safe_app; [by apply safeb_ok|]. apply cpp_safe_app; [by apply (mo_ids _ _ _ _ _ HM)|by apply safeb_ok].
    - apply Forall_forall. intros x Hx. apply elem_of_list_fmap in Hx as ([t o] & -> & Hx). split; [done|].
      destruct (wd_setters _ (mo_decl _ _ _ _ _ HM) (gen_entry s) t (outcome_enum o) He) as [H1 H2].
      { unfold gen_entry. cbn [en_verdict]. apply elem_of_list_fmap. by exists (t, o). }
      apply setter_ok'; [|done]. destruct (prog_eq v m tests types P HM) as (acc & _ & EP). rewrite EP in H1. exact H1.
    - by apply act_ok.
  Qed.
End Methods.
