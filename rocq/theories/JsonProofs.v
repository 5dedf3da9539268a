(** * Proofs about the JSON printer and parser *)
From Verif Require Export SpecJson.
From Verif Require Export StmProofs.

(** ** UTF-8 *)

Lemma code_byte n : (n < 256)%N -> code (byte n) = n.
Proof. intros. by apply N_ascii_embedding. Qed.

Definition ok_chunk (u : chunk) : Prop :=
  match u with
  | Bad _ => True
  | Good q => (exists c, q = [c] /\ (code c < 128)%N) \/
              (exists c0 c1 q', q = c0 :: c1 :: q' /\ (128 <= code c0)%N /\
                             forall t, rune_at (q ++ t) = Some (q, t))
  end.

Lemma rune_at_ok s q r : rune_at s = Some (q, r) -> s = q ++ r /\ ok_chunk (Good q).
Proof.
  unfold rune_at. destruct s as [|c0 r0]; [done|].
  destruct (code c0 <? 128)%N eqn:E0.
  { intros [= <- <-]. split; [done|]. left. exists c0. split; [done|]. by apply N.ltb_lt. }
  apply N.ltb_ge in E0 as H0.
  destruct r0 as [|c1 r1]; [done|].
  destruct (_ && _) eqn:E1.
  { intros [= <- <-]. split; [done|]. right. exists c0, c1, []. split_and!; [done..|].
    intros t. cbn. by rewrite E0, E1. }
  destruct r1 as [|c2 r2]; [done|].
  destruct (_ && in_range 128 191 c2) eqn:E2.
  { intros [= <- <-]. split; [done|]. right. exists c0, c1, [c2]. split_and!; [done..|].
    intros t. unfold rune_at. cbn [app]. by rewrite E0, E1, E2. }
  destruct r2 as [|c3 r3]; [done|].
  destruct (_ && in_range 128 191 c3) eqn:E3; [|done].
  intros [= <- <-]. split; [done|]. right. exists c0, c1, [c2; c3]. split_and!; [done..|].
  intros t. unfold rune_at. cbn [app]. by rewrite E0, E1, E2, E3.
Qed.

Lemma chunk_loop_ok fuel s : Forall ok_chunk (chunk_loop fuel s).
Proof.
  revert s. induction fuel as [|fuel IH]; intros s; cbn; [constructor|].
  destruct s as [|c r]; [constructor|].
  destruct (rune_at (c :: r)) as [[q rest]|] eqn:E; constructor; auto; [|done].
  by apply rune_at_ok in E as [_ ?].
Qed.

Lemma ok_good_ne q : ok_chunk (Good q) -> q <> [].
Proof. intros [(c & -> & _)|(c0 & c1 & q' & -> & _)]; done. Qed.

(** Enough fuel: the chunks of a concatenation of valid sequences are the sequences. *)
Lemma rune_at_good q t : ok_chunk (Good q) -> rune_at (q ++ t) = Some (q, t).
Proof.
  intros [(c & -> & Hc)|(c0 & c1 & q' & -> & _ & H)]; [|done].
  cbn. apply N.ltb_lt in Hc. by rewrite Hc.
Qed.

Lemma chunk_loop_goods qs fuel :
  Forall (fun q => ok_chunk (Good q)) qs -> (length (mjoin qs) <= fuel) ->
  chunk_loop fuel (mjoin qs) = map Good qs.
Proof.
  intros Hq. revert fuel. induction Hq as [|q qs Hq Hqs IH]; intros fuel Hf.
  { by destruct fuel. }
  assert (Hne := ok_good_ne q Hq).
  destruct q as [|c q]; [done|].
  assert (Hl : length (mjoin ((c :: q) :: qs)) = S (length q + length (mjoin qs)))
    by (change (mjoin ((c :: q) :: qs)) with (c :: (q ++ mjoin qs)); cbn [length];
        by rewrite app_length).
  assert (Hf' : S (length q + length (mjoin qs)) <= fuel) by (rewrite <- Hl; exact Hf).
  destruct fuel as [|fuel]; [lia|].
  change (mjoin ((c :: q) :: qs)) with (c :: (q ++ mjoin qs)). cbn [chunk_loop].
  change (c :: (q ++ mjoin qs)) with ((c :: q) ++ mjoin qs).
  rewrite rune_at_good by done. cbn [map]. f_equal. apply IH. lia.
Qed.

Lemma encode_rune_good r : ok_chunk (Good (encode_rune r)).
Proof.
  unfold encode_rune.
  destruct (r <? 128)%N eqn:E1.
  { left. eexists. split; [done|]. apply N.ltb_lt in E1. rewrite code_byte; lia. }
  apply N.ltb_ge in E1.
  assert (Hrep : ok_chunk (Good replacement)).
  { right. do 3 eexists. split; [done|]. split; [done|]. done. }
  destruct (r <? 2048)%N eqn:E2.
  { apply N.ltb_lt in E2. right. do 3 eexists. split; [done|].
    assert (192 + r / 64 < 256 /\ 128 + r mod 64 < 256 /\ 194 <= 192 + r / 64 <= 223 /\
            128 <= 128 + r mod 64 <= 191)%N as (? & ? & ? & ?)
      by (zify; Z.to_euclidean_division_equations; lia).
    split; [rewrite code_byte; lia|].
    intros t. unfold rune_at. cbn [app]. unfold in_range. rewrite !code_byte by done.
    repeat match goal with |- context [(?a <? ?b)%N] => rewrite (proj2 (N.ltb_ge a b)) by lia end.
    repeat match goal with |- context [(?a <=? ?b)%N] => rewrite (proj2 (N.leb_le a b)) by lia end.
    done. }
  apply N.ltb_ge in E2.
  destruct ((55296 <=? r)%N && (r <? 57344)%N) eqn:E3; [done|].
  destruct (r <? 65536)%N eqn:E4.
  { apply N.ltb_lt in E4. right. do 3 eexists. split; [done|].
    set (b0 := (224 + r / 4096)%N). set (b1 := (128 + (r / 64) mod 64)%N). set (b2 := (128 + r mod 64)%N).
    assert (Hs : (r < 55296 \/ 57344 <= r)%N).
    { apply andb_false_iff in E3 as [E3|E3]; [apply N.leb_gt in E3|apply N.ltb_ge in E3]; lia. }
    assert (224 <= b0 <= 239 /\ 128 <= b1 <= 191 /\ 128 <= b2 <= 191 /\
            (b0 = 224 -> 160 <= b1) /\ (b0 = 237 -> b1 <= 159))%N as (? & ? & ? & H1 & H2).
    { unfold b0, b1, b2. zify. Z.to_euclidean_division_equations. lia. }
    split; [rewrite code_byte; lia|].
    intros t. unfold rune_at. cbn [app]. unfold in_range. rewrite !code_byte by lia.
    clearbody b0 b1 b2.
    rewrite (proj2 (N.ltb_ge b0 128)) by lia.
    rewrite (proj2 (N.leb_gt b0 223)) by lia. rewrite andb_false_r. cbn [andb].
    rewrite (proj2 (N.leb_le 128 b2)), (proj2 (N.leb_le b2 191)) by lia.
    rewrite (proj2 (N.leb_le 128 b1)), (proj2 (N.leb_le b1 191)) by lia.
    rewrite !andb_true_r.
    assert (Hor : (((224 <=? b0) && (b0 <=? 224) && (160 <=? b1)
        || (225 <=? b0) && (b0 <=? 236) || (237 <=? b0) && (b0 <=? 237) && (b1 <=? 159)
        || (238 <=? b0) && (b0 <=? 239)) = true)%N).
    { rewrite !orb_true_iff, !andb_true_iff, !N.leb_le.
      destruct (decide (b0 = 224)%N); [lia|]. destruct (decide (b0 = 237)%N); lia. }
    cbn [andb] in *. by rewrite Hor. }
  apply N.ltb_ge in E4.
  destruct (r <? 1114112)%N eqn:E5; [|done].
  apply N.ltb_lt in E5. right. do 3 eexists. split; [done|].
  set (b0 := (240 + r / 262144)%N). set (b1 := (128 + (r / 4096) mod 64)%N).
  set (b2 := (128 + (r / 64) mod 64)%N). set (b3 := (128 + r mod 64)%N).
  assert (240 <= b0 <= 244 /\ 128 <= b1 <= 191 /\ 128 <= b2 <= 191 /\ 128 <= b3 <= 191 /\
          (b0 = 240 -> 144 <= b1) /\ (b0 = 244 -> b1 <= 143))%N as (? & ? & ? & ? & H1 & H2).
  { unfold b0, b1, b2, b3. zify. Z.to_euclidean_division_equations. lia. }
  split; [rewrite code_byte; lia|].
  intros t. unfold rune_at. cbn [app]. unfold in_range. rewrite !code_byte by lia.
  clearbody b0 b1 b2 b3.
  rewrite (proj2 (N.ltb_ge b0 128)) by lia.
  rewrite (proj2 (N.leb_gt b0 223)) by lia. rewrite andb_false_r. cbn [andb].
  rewrite (proj2 (N.leb_gt b0 224)), (proj2 (N.leb_gt b0 236)), (proj2 (N.leb_gt b0 237)),
    (proj2 (N.leb_gt b0 239)) by lia.
  rewrite !andb_false_r. cbn [andb orb].
  rewrite (proj2 (N.leb_le 128 b1)), (proj2 (N.leb_le b1 191)) by lia.
  rewrite (proj2 (N.leb_le 128 b2)), (proj2 (N.leb_le b2 191)) by lia.
  rewrite (proj2 (N.leb_le 128 b3)), (proj2 (N.leb_le b3 191)) by lia.
  rewrite !andb_true_r.
  assert (Hor : ((240 <=? b0) && (b0 <=? 240) && (144 <=? b1)
      || (241 <=? b0) && (b0 <=? 243) || (244 <=? b0) && (b0 <=? 244) && (b1 <=? 143) = true)%N).
  { rewrite !orb_true_iff, !andb_true_iff, !N.leb_le.
    destruct (decide (b0 = 240)%N); [lia|]. destruct (decide (b0 = 244)%N); lia. }
  cbn [andb] in *. by rewrite Hor.
Qed.

Lemma coerce_valid s : valid_utf8 s -> coerce s = s.
Proof.
  intros (rs & _ & ->). unfold coerce, chunks.
  rewrite chunk_loop_goods.
  - rewrite map_map. cbn. by rewrite map_id.
  - apply Forall_forall. intros q (r & <- & _)%elem_of_list_In%in_map_iff. apply encode_rune_good.
  - done.
Qed.

(** ** Strings *)

Lemma str_step_ascii c rest :
  (code c < 128)%N ->
  str_step (esc_ascii c ++ rest) = Some ([c], rest) /\
  exists d r, esc_ascii c = d :: r /\ d <> """"%char.
Proof.
  destruct c as [[] [] [] [] [] [] [] []]; intros H;
    first [ exfalso; revert H; vm_compute; discriminate
          | split; [vm_compute; reflexivity|];
            do 2 eexists; split; [vm_compute; reflexivity|]; discriminate ].
Qed.

Lemma str_step_chunk u rest :
  ok_chunk u ->
  str_step (esc_chunk u ++ rest) = Some (coerce_chunk u, rest) /\
  exists d r, esc_chunk u = d :: r /\ d <> """"%char.
Proof.
  destruct u as [q|c]; intros Hok.
  2: { split; [reflexivity|]. do 2 eexists. split; [reflexivity|]. discriminate. }
  destruct Hok as [(c & -> & Hc)|(c0 & c1 & q' & -> & H0 & Hr)].
  { cbn [esc_chunk coerce_chunk]. by apply str_step_ascii. }
  assert (Hc0 : c0 <> """"%char) by (intros ->; vm_compute in H0; by apply H0).
  assert (Hc0' : c0 <> byte 92) by (intros ->; vm_compute in H0; by apply H0).
  assert (Hc0'' : (code c0 <? 32)%N = false) by (apply N.ltb_ge; lia).
  cbn [coerce_chunk]. unfold esc_chunk.
  destruct (decide _) as [E|_].
  { rewrite E. split; [reflexivity|]. do 2 eexists. split; [reflexivity|]. discriminate. }
  destruct (decide _) as [E|_].
  { rewrite E. split; [reflexivity|]. do 2 eexists. split; [reflexivity|]. discriminate. }
  split; [|by do 2 eexists].
  unfold str_step. cbn [app]. rewrite Hc0''.
  destruct (decide _) as [E|_]; [done|].
  specialize (Hr rest). cbn [app] in Hr. by rewrite Hr.
Qed.

Lemma parse_str_chunks us fuel rest :
  Forall ok_chunk us ->
  length (mjoin (map esc_chunk us)) < fuel ->
  parse_str fuel (mjoin (map esc_chunk us) ++ """"%char :: rest) =
  Some (mjoin (map coerce_chunk us), rest).
Proof.
  intros Hok. revert fuel. induction Hok as [|u us Hu Hus IH]; intros fuel Hf.
  { destruct fuel; [cbn in Hf; lia|]. reflexivity. }
  change (mjoin (map esc_chunk (u :: us))) with (esc_chunk u ++ mjoin (map esc_chunk us)) in *.
  change (mjoin (map coerce_chunk (u :: us))) with (coerce_chunk u ++ mjoin (map coerce_chunk us)).
  rewrite app_length in Hf.
  rewrite <- app_assoc.
  destruct (str_step_chunk u (mjoin (map esc_chunk us) ++ """"%char :: rest) Hu)
    as (Hs & d & r & Hd & Hq).
  rewrite Hd in Hf, Hs |- *. cbn [length] in Hf. destruct fuel as [|fuel]; [lia|].
  cbn [app parse_str] in *. destruct (decide _) as [E|_]; [done|].
  rewrite Hs. rewrite IH by lia. done.
Qed.

Lemma quote_cons s : quote s = """"%char :: (mjoin (map esc_chunk (chunks s)) ++ [""""%char]).
Proof. done. Qed.

Lemma parse_str_quote s rest :
  forall t, quote s ++ rest = """"%char :: t -> parse_str (length t) t = Some (coerce s, rest).
Proof.
  intros t. rewrite quote_cons. cbn [app]. intros [= <-]. rewrite <- app_assoc. cbn [app].
  unfold coerce. apply parse_str_chunks; [apply chunk_loop_ok|].
  rewrite app_length. cbn. lia.
Qed.

(** ** White space *)

Lemma skip_ws_nows c r : is_ws c = false -> skip_ws (c :: r) = c :: r.
Proof. intros H. cbn. by rewrite H. Qed.

Lemma skip_ws_idemp s : skip_ws (skip_ws s) = skip_ws s.
Proof.
  induction s as [|c r IH]; [done|]. cbn. destruct (is_ws c) eqn:E; [done|].
  cbn. by rewrite E.
Qed.

Lemma skip_ws_nl lvl s : skip_ws (nl_at lvl ++ s) = skip_ws s.
Proof.
  unfold nl_at. cbn [app skip_ws].
  replace (is_ws (byte 10)) with true by reflexivity.
  induction lvl as [|lvl IH]; [done|]. cbn [repeat app skip_ws].
  by replace (is_ws (byte 9)) with true by reflexivity.
Qed.

Lemma parse_value_ws d s t : skip_ws s = skip_ws t -> parse_value d s = parse_value d t.
Proof. intros H. destruct d; cbn [parse_value]; by rewrite H. Qed.

Lemma parse_value_nl d lvl s : parse_value d (nl_at lvl ++ s) = parse_value d s.
Proof. apply parse_value_ws, skip_ws_nl. Qed.

(** ** Documents *)

(** A printed number-free value starts with neither white space nor a closing bracket. *)
Definition starts_ok (s : gostr) : Prop :=
  exists c r, s = c :: r /\ is_ws c = false /\ c <> "]"%char /\ c <> "}"%char.

Lemma print_starts lvl j : no_num j -> starts_ok (print lvl j).
Proof.
  destruct j as [|[]|t|s|l|l]; intros Hn; [..|destruct l|destruct l];
    try done; cbn [print]; (do 2 eexists; split; [reflexivity|]; by split_and!).
Qed.

Lemma print_arr lvl x l :
  print lvl (JArr (x :: l)) = "["%char :: nl_at (S lvl) ++
    sep_by (lit "," ++ nl_at (S lvl)) (map (print (S lvl)) (x :: l)) ++ nl_at lvl ++ lit "]".
Proof. done. Qed.
Definition print_member (lvl : nat) (kv : gostr * json) : gostr :=
  quote kv.1 ++ lit ": " ++ print lvl kv.2.
Lemma print_obj lvl x l :
  print lvl (JObj (x :: l)) = "{"%char :: nl_at (S lvl) ++
    sep_by (lit "," ++ nl_at (S lvl)) (map (print_member (S lvl)) (x :: l)) ++ nl_at lvl ++ lit "}".
Proof. done. Qed.

Lemma sep_by_cons2 sep x y l : sep_by sep (x :: y :: l) = x ++ sep ++ sep_by sep (y :: l).
Proof. done. Qed.

Lemma sep_by_length sep (l : list gostr) :
  Forall (fun x : gostr => x <> []) l -> length l <= length (sep_by sep l).
Proof.
  induction 1 as [|x l Hx Hl IH]; [done|].
  destruct x as [|c x]; [done|].
  destruct l as [|y l]; [cbn; lia|]. rewrite sep_by_cons2, !app_length. cbn [length] in *.
  unfold gostr in *. lia.
Qed.

Lemma parse_elems_print pv lvl l fuel rest :
  (forall s, pv (nl_at (S lvl) ++ s) = pv s) ->
  Forall (fun j => forall rest', pv (print (S lvl) j ++ rest') = Some (jcoerce j, rest')) l ->
  l <> [] -> length l <= fuel ->
  parse_elems pv fuel (sep_by (lit "," ++ nl_at (S lvl)) (map (print (S lvl)) l) ++
                       nl_at lvl ++ "]"%char :: rest) = Some (map jcoerce l, rest).
Proof.
  intros Hws Hl. revert fuel. induction Hl as [|j l Hj Hl IH]; intros fuel Hne Hf; [done|].
  destruct fuel as [|fuel]; [cbn in Hf; lia|].
  cbn [parse_elems]. destruct l as [|j2 l].
  - cbn [map sep_by]. rewrite Hj. rewrite skip_ws_nl. cbn [skip_ws].
    replace (is_ws "]") with false by reflexivity. done.
  - cbn [map]. rewrite sep_by_cons2, <- !app_assoc. rewrite Hj.
    change (lit "," ++ ?x) with (","%char :: x). rewrite skip_ws_nows by reflexivity.
    destruct (decide _) as [_|E]; [|done].
    assert (Hp : forall s, parse_elems pv fuel (nl_at (S lvl) ++ s) = parse_elems pv fuel s)
      by (intros s; destruct fuel; [done|]; cbn [parse_elems]; by rewrite Hws).
    rewrite Hp. cbn [map] in IH. rewrite IH; [done|done|cbn in Hf |- *; lia].
Qed.

Lemma parse_members_print pv lvl l fuel rest :
  (forall s, pv (lit " " ++ s) = pv s) ->
  Forall (fun kv => forall rest', pv (print (S lvl) kv.2 ++ rest') = Some (jcoerce kv.2, rest')) l ->
  l <> [] -> length l <= fuel ->
  parse_members pv fuel (sep_by (lit "," ++ nl_at (S lvl)) (map (print_member (S lvl)) l) ++
                         nl_at lvl ++ "}"%char :: rest) =
  Some (map (fun kv => (coerce kv.1, jcoerce kv.2)) l, rest).
Proof.
  intros Hws Hl. revert fuel. induction Hl as [|[k j] l Hj Hl IH]; intros fuel Hne Hf; [done|].
  destruct fuel as [|fuel]; [cbn in Hf; lia|].
  assert (Hhd : forall tail,
    parse_members pv (S fuel) (print_member (S lvl) (k, j) ++ tail) =
    match skip_ws tail with
    | e :: r4 =>
      if decide (e = ","%char) then
        match parse_members pv fuel r4 with
        | Some (l, rest) => Some ((coerce k, jcoerce j) :: l, rest)
        | None => None
        end
      else if decide (e = "}"%char) then Some ([(coerce k, jcoerce j)], r4)
      else None
    | [] => None
    end).
  { intros tail. unfold print_member. cbn [fst snd] in *. rewrite <- !app_assoc.
    cbn [parse_members].
    assert (Hq := parse_str_quote k (lit ": " ++ print (S lvl) j ++ tail)).
    destruct (quote k ++ lit ": " ++ print (S lvl) j ++ tail) as [|c t] eqn:E; [done|].
    assert (c = """"%char) as -> by (rewrite quote_cons in E; by inversion E).
    rewrite skip_ws_nows by reflexivity. destruct (decide _) as [_|E']; [|done].
    rewrite (Hq t eq_refl).
    change (lit ": " ++ print (S lvl) j ++ tail) with (":"%char :: lit " " ++ print (S lvl) j ++ tail).
    rewrite skip_ws_nows by reflexivity. destruct (decide _) as [_|E']; [|done].
    rewrite Hws, Hj. done. }
  destruct l as [|kv2 l].
  - cbn [map sep_by]. rewrite Hhd, skip_ws_nl, skip_ws_nows by reflexivity. done.
  - cbn [map]. rewrite sep_by_cons2, <- !app_assoc. rewrite Hhd.
    change (lit "," ++ ?x) with (","%char :: x). rewrite skip_ws_nows by reflexivity.
    destruct (decide _) as [_|E]; [|done].
    assert (Hp : forall s, parse_members pv fuel (nl_at (S lvl) ++ s) = parse_members pv fuel s)
      by (intros s; destruct fuel; [done|]; cbn [parse_members]; by rewrite skip_ws_nl).
    rewrite Hp. cbn [map] in IH. rewrite IH; [done|done|cbn in Hf |- *; lia].
Qed.

Lemma foldr_and_Forall {A} (P : A -> Prop) l : foldr and True (map P l) <-> Forall P l.
Proof.
  induction l as [|x l IH]; cbn; [split; constructor|]. rewrite IH. by rewrite Forall_cons.
Qed.

Lemma list_max_elem x l n : In x l -> list_max l <= n -> x <= n.
Proof. intros Hin H. apply list_max_le in H. rewrite List.Forall_forall in H. auto. Qed.

Lemma print_ne lvl j : no_num j -> print lvl j <> [].
Proof. intros H. by destruct (print_starts lvl j H) as (c & r & -> & _). Qed.

Theorem parse_print j lvl d rest :
  no_num j -> jdepth j <= d ->
  parse_value d (print lvl j ++ rest) = Some (jcoerce j, rest).
Proof.
  revert lvl d rest. induction j as [|b|t|s|l IH|l IH] using json_ind'; intros lvl d rest Hn Hd.
  - destruct d; reflexivity.
  - destruct b, d; reflexivity.
  - done.
  - cbn [print jcoerce]. assert (Hq := parse_str_quote s rest).
    destruct (quote s ++ rest) as [|c t] eqn:E; [done|].
    assert (c = """"%char) as -> by (rewrite quote_cons in E; by inversion E).
    specialize (Hq t eq_refl).
    destruct d; cbn [parse_value]; rewrite skip_ws_nows by reflexivity;
      (destruct (decide _) as [E'|_]; [discriminate|]);
      (destruct (decide _) as [E'|_]; [discriminate|]);
      (destruct (decide _) as [_|E']; [|done]); by rewrite Hq.
  - destruct l as [|x l]; [destruct d; [cbn in Hd; lia|]; reflexivity|].
    destruct d as [|d]; [cbn in Hd; lia|].
    assert (Hn' : Forall no_num (x :: l)) by (apply foldr_and_Forall; exact Hn).
    rewrite print_arr. cbn [app]. rewrite <- !app_assoc.
    cbn [parse_value]. rewrite skip_ws_nows by reflexivity.
    destruct (decide _) as [E'|_]; [discriminate|].
    destruct (decide _) as [_|E']; [|done].
    rewrite skip_ws_nl.
    set (body := sep_by _ _).
    assert (Hst : exists c r, body ++ nl_at lvl ++ lit "]" ++ rest = c :: r /\
                              is_ws c = false /\ c <> "]"%char).
    { destruct (print_starts (S lvl) x) as (c & r & Hc & Hw & H1 & H2).
      { by apply Forall_cons in Hn' as [? _]. }
      exists c. unfold body. cbn [map]. destruct (map (print (S lvl)) l) as [|y ys].
      - cbn [sep_by]. rewrite Hc. eexists; split; [reflexivity|done].
      - rewrite sep_by_cons2, Hc. eexists; split; [reflexivity|done]. }
    destruct Hst as (c & r & Hbody & Hw & Hc). rewrite Hbody. rewrite skip_ws_nows by done.
    destruct (decide _) as [E'|_]; [done|]. rewrite <- Hbody.
    match goal with |- context [length ?X] => set (fuel := length X) end.
    assert (Hfu : length (x :: l) <= fuel).
    { unfold fuel. rewrite !app_length. etrans; [|etrans; [apply Nat.le_add_r|apply Nat.le_add_l]].
      unfold body. rewrite <- (map_length (print (S lvl))). apply sep_by_length.
      apply Forall_forall. intros p (j & <- & Hj)%elem_of_list_In%in_map_iff.
      apply print_ne. apply elem_of_list_In in Hj. rewrite Forall_forall in Hn'. by apply Hn'. }
    clearbody fuel. destruct fuel as [|fuel]; [cbn in Hfu; lia|].
    assert (Hp : parse_elems (parse_value d) (S fuel) (nl_at (S lvl) ++ body ++ nl_at lvl ++ lit "]" ++ rest)
                 = parse_elems (parse_value d) (S fuel) (body ++ nl_at lvl ++ lit "]" ++ rest)).
    { cbn [parse_elems]. by rewrite parse_value_nl. }
    rewrite Hp. unfold body. change (lit "]" ++ rest) with ("]"%char :: rest).
    rewrite parse_elems_print; [done| | |done|done].
    + intros s. apply parse_value_nl.
    + rewrite Forall_forall in IH, Hn' |- *. intros j Hj rest'. apply IH; [done|by apply Hn'|].
      cbn [jdepth] in Hd. eapply list_max_elem; [|apply le_S_n, Hd].
      apply in_map. by apply elem_of_list_In.
  - destruct l as [|x l]; [destruct d; [cbn in Hd; lia|]; reflexivity|].
    destruct d as [|d]; [cbn in Hd; lia|].
    assert (Hn' : Forall (fun kv => no_num kv.2) (x :: l)) by (apply foldr_and_Forall; exact Hn).
    rewrite print_obj. cbn [app]. rewrite <- !app_assoc.
    cbn [parse_value]. rewrite skip_ws_nows by reflexivity.
    destruct (decide _) as [_|E']; [|done].
    rewrite skip_ws_nl.
    set (body := sep_by _ _).
    assert (Hst : exists r, body ++ nl_at lvl ++ lit "}" ++ rest = """"%char :: r).
    { unfold body. cbn [map]. destruct (map (print_member (S lvl)) l) as [|y ys].
      - cbn [sep_by]. unfold print_member. rewrite quote_cons. eexists; reflexivity.
      - rewrite sep_by_cons2. unfold print_member. rewrite quote_cons. eexists; reflexivity. }
    destruct Hst as (r & Hbody). rewrite Hbody. rewrite skip_ws_nows by done.
    destruct (decide _) as [E'|_]; [done|]. rewrite <- Hbody.
    match goal with |- context [length ?X] => set (fuel := length X) end.
    assert (Hfu : length (x :: l) <= fuel).
    { unfold fuel. rewrite !app_length. etrans; [|etrans; [apply Nat.le_add_r|apply Nat.le_add_l]].
      unfold body. rewrite <- (map_length (print_member (S lvl))). apply sep_by_length.
      apply Forall_forall. intros p (j & <- & Hj)%elem_of_list_In%in_map_iff.
      unfold print_member. by rewrite quote_cons. }
    clearbody fuel. destruct fuel as [|fuel]; [cbn in Hfu; lia|].
    assert (Hp : parse_members (parse_value d) (S fuel) (nl_at (S lvl) ++ body ++ nl_at lvl ++ lit "}" ++ rest)
                 = parse_members (parse_value d) (S fuel) (body ++ nl_at lvl ++ lit "}" ++ rest)).
    { cbn [parse_members]. by rewrite skip_ws_nl. }
    rewrite Hp. unfold body. change (lit "}" ++ rest) with ("}"%char :: rest).
    rewrite parse_members_print; [done| | |done|done].
    + intros s. by apply parse_value_ws.
    + rewrite Forall_forall in IH, Hn' |- *. intros j Hj rest'. apply IH; [done|by apply Hn'|].
      cbn [jdepth] in Hd. eapply list_max_elem; [|apply le_S_n, Hd].
      apply (in_map (fun kv => jdepth kv.2)). by apply elem_of_list_In.
Qed.

Lemma jcoerce_valid j : jvalid j -> jcoerce j = j.
Proof.
  induction j as [|b|t|s|l IH|l IH] using json_ind'; intros Hv; try done.
  - cbn in *. by rewrite coerce_valid.
  - cbn [jcoerce]. f_equal. apply foldr_and_Forall in Hv.
    rewrite <- (map_id l) at 2. apply map_ext_in. intros j Hj%elem_of_list_In.
    rewrite Forall_forall in IH, Hv. by apply IH; [|apply Hv].
  - cbn [jcoerce]. f_equal.
    apply (foldr_and_Forall (fun kv => valid_utf8 kv.1 /\ jvalid kv.2)) in Hv.
    rewrite <- (map_id l) at 2. apply map_ext_in. intros [k j] Hj%elem_of_list_In.
    rewrite Forall_forall in IH, Hv. specialize (Hv _ Hj) as [Hk Hvj].
    specialize (IH _ Hj Hvj). cbn [fst snd] in *. by rewrite IH, coerce_valid.
Qed.

(** Writing then reading. *)
Theorem read_write_doc j text :
  no_num j -> write_doc j = Some text -> read_doc text = Some (jcoerce j).
Proof.
  unfold write_doc, read_doc. intros Hn. destruct (jdepth j <=? max_depth) eqn:E; [|done].
  intros [= <-]. rewrite parse_print; [done|done|by apply Nat.leb_le].
Qed.
