(** * The tables of the script and the committed files *)
From Coq Require Import ZArith String Lia.
From Verif Require Import Prim Str FontDefs Codegen CodegenText Render Config Editor EditorTables SpecEditor EditorJson EditorProofs.
From Verif Require Import Sheets IndexText IndexLatin TextInputs Files.
Local Open Scope N_scope.
Local Open Scope list_scope.

(** Canonical decomposition of the clusters in the table (Unicode data) *)
Definition decomposition (c : list N) : list N :=
  match find (fun p => if list_eq_dec N.eq_dec (fst p) c then true else false) latin_decompositions with
  | Some p => snd p
  | None => c
  end.

Lemma script_names : Forall2 cluster_name (map ir_hex script_latin) latin_index.
Proof.
  assert (E : map ir_hex script_latin = map ruby_hex_name latin_index) by (vm_compute; reflexivity).
  rewrite E.
  assert (Ne : Forall (fun c => c <> []) latin_index).
  { apply Forall_forall. intros c I E0. subst c.
    assert (X : existsb (fun c => match c with [] => true | _ => false end) latin_index = true).
    { apply existsb_exists. exists []. split; [exact I|reflexivity]. }
    vm_compute in X. discriminate X. }
  clear E. induction Ne as [|c l H F IH]; [constructor|]. constructor; [apply ruby_name; exact H|exact IH].
Qed.
Lemma script_chars : Forall chars_ok latin_index.
Proof.
  apply Forall_forall. intros c I. apply Forall_forall. intros x Ix.
  assert (X : forallb (forallb is_char) latin_index = true) by (vm_compute; reflexivity).
  rewrite forallb_forall in X. specialize (X c I). rewrite forallb_forall in X. apply X. exact Ix.
Qed.

Definition committed_writes : list (list N * list N) :=
  [(lit "src_data/latin_index.json", text_of latin_index_json);
   (lit "src_data/latin_aliases.txt", text_of latin_aliases_txt);
   (lit "src_data/icon_index.json", text_of icon_index_json);
   (lit "config.json", text_of config_json)].

Definition pairs_eqb (a b : list (list N * list N)) : bool :=
  if list_eq_dec (fun x y : list N * list N =>
       match list_eq_dec N.eq_dec (fst x) (fst y), list_eq_dec N.eq_dec (snd x) (snd y) with
       | left e1, left e2 => left (eq_trans (eq_trans (surjective_pairing x) (f_equal2 pair e1 e2)) (eq_sym (surjective_pairing y)))
       | right n, _ => right (fun e => n (f_equal fst e))
       | _, right n => right (fun e => n (f_equal snd e))
       end) a b then true else false.
Lemma pairs_eqb_eq a b : pairs_eqb a b = true -> a = b.
Proof. unfold pairs_eqb. destruct (list_eq_dec _ a b) as [E|]; [intros _; exact E|discriminate]. Qed.

Lemma script_run : pairs_eqb (r_writes (editor decomposition script_tables (lit "y"))) committed_writes
  && r_ok (editor decomposition script_tables (lit "y")) = true.
Proof. vm_cast_no_check (eq_refl true). Qed.

Lemma script_writes nfd input : (forall c, In c latin_index -> nfd c = decomposition c) -> says_yes input ->
  r_writes (editor nfd script_tables input) = committed_writes /\ r_ok (editor nfd script_tables input) = true.
Proof.
  intros He Hy. rewrite (editor_ext nfd decomposition script_tables latin_index input script_names script_chars He Hy).
  assert (Hy' : says_yes (lit "y")). { exists 121. split; [left; reflexivity|left; reflexivity]. }
  rewrite (editor_same _ _ _ _ Hy Hy').
  assert (R := script_run). apply andb_prop in R. destruct R as [R1 R2]. split; [apply pairs_eqb_eq; exact R1|exact R2].
Qed.

Definition scalarsb (s : list N) : bool := forallb (fun c => (c <? 0xD800) || ((0xE000 <=? c) && (c <? 0x110000))) s.
Lemma scalarsb_ok s : scalarsb s = true -> scalars s.
Proof. unfold scalarsb, scalars. rewrite forallb_forall, Forall_forall. intros H c I. specialize (H c I). lia. Qed.
Definition int64b (z : Z) : bool := ((- 2 ^ 63 <=? z) && (z <? 2 ^ 63))%Z.
Definition rowb (r : index_row) : bool := scalarsb (ir_hex r) && scalarsb (ir_label r) && int64b (ir_row r) && int64b (ir_col r).
Definition setb (g : config_set) : bool :=
  forallb scalarsb [cg_name g; cg_sprites g; cg_legal g; cg_index g; cg_index_type g; cg_aliases g; cg_trim g; cg_out g]
  && (cg_seed g <? 2 ^ 32) && forallb int64b [cg_size g; cg_cols g; cg_gutter g; cg_border g].
Lemma all_ok {A} (p : A -> bool) (P : A -> Prop) l : (forall a, p a = true -> P a) -> forallb p l = true -> Forall P l.
Proof. intros H F. rewrite forallb_forall in F. apply Forall_forall. auto. Qed.
Lemma rowb_ok r : rowb r = true -> row_ok r.
Proof.
  unfold rowb. intros H. apply andb_prop in H. destruct H as [H H4]. apply andb_prop in H. destruct H as [H H3].
  apply andb_prop in H. destruct H as [H1 H2]. split; [apply scalarsb_ok; exact H1|]. split; [apply scalarsb_ok; exact H2|].
  unfold int64b, int64 in *. lia.
Qed.
Lemma setb_ok g : setb g = true -> set_ok g.
Proof.
  unfold setb. intros H. apply andb_prop in H. destruct H as [H H3]. apply andb_prop in H. destruct H as [H1 H2].
  split; [apply (all_ok scalarsb); [exact scalarsb_ok|exact H1]|]. split; [lia|].
  apply (all_ok int64b); [|exact H3]. unfold int64b, int64. intros z. lia.
Qed.
Lemma script_ok : tables_ok script_tables.
Proof.
  split; [split; [|split]|split; [|split]].
  1-3: apply (all_ok scalarsb); [exact scalarsb_ok|vm_compute; reflexivity].
  - apply (all_ok setb); [exact setb_ok|vm_compute; reflexivity].
  - apply (all_ok rowb); [exact rowb_ok|vm_compute; reflexivity].
  - apply (all_ok rowb); [exact rowb_ok|vm_compute; reflexivity].
Qed.
Definition clusterb (c : list N) : bool :=
  scalarsb c && scalarsb (decomposition c) && negb (match decomposition c with [] => true | _ => false end)
  && forallb (fun x => negb (x =? 10)) c && forallb (fun x => negb (x =? 10)) (decomposition c).
Lemma clusterb_ok c : clusterb c = true -> cluster_ok decomposition c.
Proof.
  unfold clusterb. intros H. apply andb_prop in H. destruct H as [H H5]. apply andb_prop in H. destruct H as [H H4].
  apply andb_prop in H. destruct H as [H H3]. apply andb_prop in H. destruct H as [H1 H2].
  assert (L : forall s, forallb (fun x => negb (x =? 10)) s = true -> ~ In 10 s).
  { intros s F I. rewrite forallb_forall in F. specialize (F 10 I). discriminate. }
  split; [apply scalarsb_ok; exact H1|]. split; [apply scalarsb_ok; exact H2|].
  split; [intros E; rewrite E in H3; discriminate|]. split; apply L; assumption.
Qed.
Lemma script_clusters : Forall (cluster_ok decomposition) latin_index.
Proof. apply (all_ok clusterb); [exact clusterb_ok|vm_compute; reflexivity]. Qed.
