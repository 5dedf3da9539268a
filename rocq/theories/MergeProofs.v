(** * Without repeated keys the decoders are the plain ones *)
From Verif Require Export Json.
From Verif Require Export StmProofs.

(** [r'] is [r], with [f] of what is decoded; [r] says nothing about repeated keys. *)
Definition agrees {A B} (f : B -> A) (r : jres A) (r' : jres B) : Prop :=
  match r with
  | Ok a => exists b, r' = Ok b /\ f b = a
  | Err JUnmodelled => True
  | Err _ => exists e, r' = Err e
  | Panic => r' = Panic
  end.
Lemma agrees_bind {A B C D} (f : B -> A) (g : D -> C) r r' k k' : agrees f r r' -> (forall b, agrees g (k (f b)) (k' b)) -> agrees g (res_bind r k) (res_bind r' k').
Proof.
  intros H Hk. destruct r as [a|e|]; cbn in *.
  - destruct H as (b & -> & <-). apply Hk.
  - destruct e; try done; destruct H as (e & ->); by exists e.
  - by rewrite H.
Qed.
Lemma agrees_field {A B} (f : B -> A) name (dec : json -> jres A) dec' zero zero' kvs : f zero' = zero -> (forall j, agrees f (dec j) (dec' zero' j)) ->
  agrees f (dec_field name dec zero kvs) (m_field name dec' zero' kvs).
Proof.
  intros Hz Hd. unfold dec_field, get_field, m_field. destruct (base.filter _ kvs) as [|kv [|]]; cbn; [by exists zero'| |done].
  specialize (Hd kv.2). destruct (dec kv.2) as [a|e|]; cbn in *; [destruct Hd as (b & -> & <-); by exists b|destruct e; try done; destruct Hd as (e & ->); by exists e|by rewrite Hd].
Qed.
Lemma agrees_refl {A} (r : jres A) : agrees id r r.
Proof. destruct r as [a|e|]; cbn; [by exists a|destruct e; by try eexists|done]. Qed.
Lemma agrees_string j : agrees id (dec_string j) (m_string [] j).
Proof. destruct j; cbn; try (by eexists); done. Qed.
Lemma agrees_text {A} (g : gostr -> jres A) (g' : A -> gostr -> jres A) zero j : (forall s, g s = g' zero s) -> agrees id (dec_text g zero j) (m_text g' zero j).
Proof. intros H. destruct j; cbn; try (by eexists). rewrite H. apply agrees_refl. Qed.
Lemma agrees_ptr {A B} (f : B -> A) (dec : json -> jres A) dec' zero j : (forall j, agrees f (dec j) (dec' zero j)) -> agrees (fmap f) (dec_ptr dec j) (m_ptr zero dec' None j).
Proof.
  intros H. unfold dec_ptr, m_ptr. cbn [default]. destruct j; [by eexists|..].
  all: refine (agrees_bind f (fmap f) _ _ _ _ (H _) _); intros x; by exists (Some x).
Qed.
Lemma agrees_cells {A B} (f : B -> A) (dec : json -> jres A) dec' zero l : (forall j, agrees f (dec j) (dec' zero j)) -> agrees (map f) (res_map dec l) (m_cells zero dec' [] l).
Proof.
  intros H. induction l as [|j l IH]; cbn [res_map m_cells]; [by exists []|]. cbn [head tail default].
  refine (agrees_bind f (map f) _ _ _ _ (H _) _). intros x. refine (agrees_bind (map f) (map f) _ _ _ _ IH _). intros xs. by exists (x :: xs).
Qed.
Lemma m_cells_length {A} zero (dec : A -> json -> jres A) mem l xs : m_cells zero dec mem l = Ok xs -> length l <= length xs.
Proof.
  revert mem xs. induction l as [|j l IH]; intros mem xs H; cbn [m_cells] in H; [cbn; lia|]. destruct (dec _ j); [|done..]. cbn [res_bind] in H.
  destruct (m_cells zero dec (tail mem) l) as [ys| |] eqn:E; [|done..]. cbn [res_bind] in H. injection H as <-. specialize (IH _ _ E). cbn. lia.
Qed.
Lemma m_cells_fresh {A} zero (dec : A -> json -> jres A) l xs : m_cells zero dec [] l = Ok xs -> length xs = length l.
Proof.
  revert xs. induction l as [|j l IH]; intros xs H; cbn [m_cells] in H; [by injection H as <-|]. destruct (dec _ j); [|done..]. cbn [res_bind tail] in H.
  destruct (m_cells zero dec [] l) as [ys| |] eqn:E; [|done..]. cbn [res_bind] in H. injection H as <-. cbn. by rewrite (IH _ eq_refl).
Qed.
Lemma agrees_slice {A B} (f : B -> A) (dec : json -> jres A) dec' zero j : (forall j, agrees f (dec j) (dec' zero j)) -> agrees (fun s => map f (live s)) (dec_list dec j) (m_slice zero dec' m_nil j).
Proof.
  intros H. destruct j as [| | | |l|]; cbn [dec_list m_slice]; [by exists m_nil|by eexists..| |by eexists]. destruct l as [|j l]; [by exists m_nil|]. cbn [m_nil fst].
  pose proof (agrees_cells f dec dec' zero (j :: l) H) as Ha. destruct (res_map dec (j :: l)) as [xs|e|].
  - destruct Ha as (ys & E & <-). exists (ys, length (j :: l)). rewrite E. split; [done|]. unfold live. cbn [fst snd]. f_equal. apply take_ge. by rewrite (m_cells_fresh _ _ _ _ E).
  - cbn in *. destruct e; try done; destruct Ha as (e & ->); by exists e.
  - cbn in *. by rewrite Ha.
Qed.
Lemma agrees_strip {A B} (f : B -> A) r r' : agrees f r r' -> agrees id r (res_bind r' (fun b => Ok (f b))).
Proof. intros H. destruct r as [a|e|]; cbn in *; [destruct H as (b & -> & <-); by exists (f b)|destruct e; try done; by destruct H as (e & ->); exists e|by rewrite H]. Qed.
Lemma agrees_members {A} (dec dec' : json -> jres A) kvs m : (forall j, agrees id (dec j) (dec' j)) -> agrees id (dec_members dec kvs m) (dec_members dec' kvs m).
Proof.
  intros H. revert m. induction kvs as [|[k v] l IH]; intros m; cbn [dec_members]; [by eexists|].
  refine (agrees_bind id id _ _ _ _ (H v) _). intros a. apply IH.
Qed.
Lemma agrees_map {A} (dec dec' : json -> jres A) j : (forall j, agrees id (dec j) (dec' j)) -> agrees id (dec_map dec j) (dec_map dec' j).
Proof. intros H. destruct j; cbn; try (by eexists). by apply agrees_members. Qed.
Lemma agrees_map_into {A} (dec dec' : json -> jres A) j : (forall j, agrees id (dec j) (dec' j)) -> agrees id (dec_map dec j) (m_map dec' ∅ j).
Proof. intros H. destruct j; cbn; try (by eexists). by apply agrees_members. Qed.
Lemma agrees_struct {A B} (f : B -> A) zero zero' g g' j : f zero' = zero -> (forall kvs, agrees f (g kvs) (g' zero' kvs)) -> agrees f (dec_struct zero g j) (m_struct g' zero' j).
Proof. intros Hz H. destruct j; cbn; try (by eexists). apply H. Qed.
Lemma agrees_node fuel j : agrees node_of (dec_node fuel j) (m_node fuel zero_mnode j).
Proof.
  revert j. induction fuel as [|fuel IH]; intros j; cbn [dec_node m_node]; [by eexists|]. unfold zero_mnode. destruct j as [| | | | |kvs]; try (by eexists).
  refine (agrees_bind id _ _ _ _ _ (agrees_field _ _ _ _ _ _ _ _ _) _); [done|apply agrees_string|intros i].
  refine (agrees_bind live _ _ _ _ _ (agrees_field live _ _ _ _ _ _ _ _) _); [done| |intros ts].
  { intros j. pose proof (agrees_slice id dec_string m_string [] j agrees_string) as H. unfold agrees in *. destruct (dec_list dec_string j); [|done..]. destruct H as (b & Eb & <-). exists b. split; [exact Eb|]. by rewrite list_fmap_id. }
  refine (agrees_bind id _ _ _ _ _ (agrees_field _ _ _ _ _ _ _ _ _) _); [done|intros j; by apply agrees_text|intros o].
  refine (agrees_bind (fmap id) _ _ _ _ _ (agrees_field (fmap id) _ _ _ _ _ _ _ _) _); [done|intros j; apply agrees_ptr; intros j'; by apply agrees_text|intros e].
  refine (agrees_bind (fun s => map node_of (live s)) _ _ _ _ _ (agrees_field (fun s => map node_of (live s)) _ _ _ _ _ _ _ _) _); [done|intros j; apply agrees_slice, IH|intros next].
  eexists. split; [reflexivity|]. cbn [node_of]. unfold live. rewrite firstn_map. by destruct e.
Qed.
Lemma agrees_suite j : agrees id (dec_suite j) (m_suite j).
Proof. apply agrees_map. intros v. apply agrees_strip, agrees_ptr. intros j'. apply agrees_node. Qed.

Lemma agrees_transition j : agrees id (dec_transition j) (m_transition (Transition None []) j).
Proof.
  apply agrees_struct; [done|]. intros kvs. refine (agrees_bind id _ _ _ _ _ (agrees_field _ _ _ _ _ _ _ _ _) _); [done|intros j'; by apply agrees_text|intros v].
  refine (agrees_bind id _ _ _ _ _ (agrees_field _ _ _ _ _ _ _ _ _) _); [done|apply agrees_string|intros n]. by eexists.
Qed.
Lemma agrees_tset j : agrees tset_of (dec_tset j) (m_tset (zero_channel, m_nil) j).
Proof.
  apply agrees_struct; [done|]. intros kvs. refine (agrees_bind id _ _ _ _ _ (agrees_field _ _ _ _ _ _ _ _ _) _); [done|intros j'; by apply agrees_text|intros c].
  refine (agrees_bind (fun s => map id (live s)) _ _ _ _ _ (agrees_field (fun s => map id (live s)) _ _ _ _ _ _ _ _) _); [done|intros j'; apply agrees_slice, agrees_transition|intros t].
  eexists. split; [reflexivity|]. unfold tset_of. cbn. by rewrite list_fmap_id.
Qed.
Lemma agrees_state j : agrees rstate_of (dec_state j) (m_state zero_mstate j).
Proof.
  apply agrees_struct; [done|]. intros kvs. refine (agrees_bind id _ _ _ _ _ (agrees_field _ _ _ _ _ _ _ _ _) _); [done|apply agrees_string|intros i].
  refine (agrees_bind (fun s => map tset_of (live s)) _ _ _ _ _ (agrees_field (fun s => map tset_of (live s)) _ _ _ _ _ _ _ _) _); [done|intros j'; apply agrees_slice, agrees_tset|intros t].
  refine (agrees_bind (fmap id) _ _ _ _ _ (agrees_field (fmap id) _ _ _ _ _ _ _ _) _); [done|intros j'; apply agrees_ptr; intros j2; apply agrees_refl|intros v].
  eexists. split; [reflexivity|]. unfold rstate_of. cbn. by destruct v.
Qed.
Lemma agrees_types j : agrees id (dec_types j) (m_type_map ∅ j).
Proof. apply agrees_map_into. intros j'. apply agrees_refl. Qed.
Lemma agrees_stm j : agrees rstm_of (dec_stm j) (m_stm zero_mstm j).
Proof.
  apply agrees_struct; [done|]. intros kvs. refine (agrees_bind (fun s => map (fmap rstate_of) (live s)) _ _ _ _ _ (agrees_field (fun s => map (fmap rstate_of) (live s)) _ _ _ _ _ _ _ _) _);
    [done|intros j'; apply agrees_slice; intros j2; apply agrees_ptr, agrees_state|intros s].
  refine (agrees_bind id _ _ _ _ _ (agrees_field _ _ _ _ _ _ _ _ _) _); [done|apply agrees_types|intros ty].
  refine (agrees_bind id _ _ _ _ _ (agrees_field _ _ _ _ _ _ _ _ _) _); [done|intros j'; apply agrees_refl|intros te]. by eexists.
Qed.
Lemma agrees_stm_suite j : agrees id (dec_stm_suite j) (m_stm_suite j).
Proof.
  apply agrees_struct; [done|]. intros kvs. refine (agrees_bind id _ _ _ _ _ (agrees_field _ _ _ _ _ _ _ _ _) _); [done|apply agrees_types|intros ty].
  refine (agrees_bind id _ _ _ _ _ (agrees_field _ _ _ _ _ _ _ _ _) _); [done|intros j'; apply agrees_map_into; intros v; apply agrees_strip, agrees_ptr, agrees_stm|intros te]. by eexists.
Qed.
Lemma m_suite_ok j s : dec_suite j = Ok s -> m_suite j = Ok s.
Proof. intros H. pose proof (agrees_suite j) as Ha. rewrite H in Ha. destruct Ha as (b & Hb & <-). exact Hb. Qed.
Lemma m_stm_suite_ok j s : dec_stm_suite j = Ok s -> m_stm_suite j = Ok s.
Proof. intros H. pose proof (agrees_stm_suite j) as Ha. rewrite H in Ha. destruct Ha as (b & Hb & <-). exact Hb. Qed.
