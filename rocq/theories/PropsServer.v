(** * C81: the web server of the demo *)
From Coq Require Strings.Byte.
From Coq Require Import Strings.String.
From Coq Require Import ZArith.
From Verif Require Import PrimFacts Webasm WebasmBin DemoFile SpecValid Page Server PropsPage.

Lemma same_name_eq a b : same_name a b = true <-> a = b.
Proof.
  revert b; induction a as [|x a IH]; intros [|y b]; cbn [same_name]; split; try discriminate; try reflexivity.
  - intros H. apply andb_true_iff in H as [H1 H2]. apply N.eqb_eq in H1. apply IH in H2. congruence.
  - intros H. injection H as -> ->. rewrite N.eqb_refl. apply IH. reflexivity.
Qed.
Lemma same_name_neq a b : a <> b -> same_name a b = false.
Proof. intros H. destruct (same_name a b) eqn:E; [|reflexivity]. apply same_name_eq in E. contradiction. Qed.
Lemma type_merged t k : type_of (server_types t) k = if same_name wasm k then Some application_wasm else type_of t k.
Proof. reflexivity. Qed.
Lemma no_dot e : ~ In 46 e -> at_last_dot e = None.
Proof.
  induction e as [|c e IH]; intros H; [reflexivity|]. cbn [at_last_dot]. rewrite IH by (intros X; apply H; right; exact X).
  destruct (N.eqb_spec c 46) as [->|]; [exfalso; apply H; left; reflexivity|reflexivity].
Qed.
Lemma last_dot a e : ~ In 46 e -> at_last_dot (a ++ 46 :: e) = Some (a, e).
Proof.
  intros H. induction a as [|c a IH]; cbn [app at_last_dot]; [rewrite (no_dot e H); reflexivity|]. rewrite IH. reflexivity.
Qed.
Lemma last_dot_app s : forall a e, at_last_dot s = Some (a, e) -> s = a ++ 46 :: e.
Proof.
  induction s as [|c s IH]; intros a e; [discriminate|]. cbn [at_last_dot].
  destruct (at_last_dot s) as [[a' e']|].
  - intros E. injection E as <- <-. cbn [app]. f_equal. apply IH. reflexivity.
  - destruct (N.eqb_spec c 46) as [->|]; [|discriminate]. intros E. injection E as <- <-. reflexivity.
Qed.
Lemma word_no_dot e : Forall (fun c => word_char c = true \/ c = 45) e -> ~ In 46 e.
Proof. intros H I. rewrite Forall_forall in H. destruct (H 46 I) as [E|E]; [vm_compute in E; discriminate|discriminate]. Qed.
Lemma words_and e : forallb word_char e = true -> Forall (fun c => word_char c = true \/ c = 45) e.
Proof. rewrite forallb_forall. intros H. apply Forall_forall. intros c Hc. left. exact (H c Hc). Qed.

(** C81: suffixes are what the expressions of WEBrick match: the characters after the last dot, in lower case, if there
    are some and all are letters, digits and low lines; and the same before a suffix that may have hyphens too *)
Theorem C81_suffixes : forall f k,
  (suffix1 f = Some k <-> exists a e, f = a ++ 46 :: e /\ e <> [] /\ forallb word_char e = true /\ k = map downcase e) /\
  (suffix2 f = Some k <-> exists a e g, f = a ++ 46 :: e ++ 46 :: g /\ e <> [] /\ forallb word_char e = true /\
     g <> [] /\ forallb (fun c => word_char c || (c =? 45)) g = true /\ k = map downcase e).
Proof.
  assert (A : forall f k, suffix1 f = Some k <-> exists a e, f = a ++ 46 :: e /\ e <> [] /\ forallb word_char e = true /\ k = map downcase e).
  { intros f k. unfold suffix1. split.
    - destruct (at_last_dot f) as [[a e]|] eqn:E; [|discriminate]. apply last_dot_app in E.
      destruct (filled e && forallb word_char e) eqn:W; [|discriminate]. intros K. injection K as <-.
      apply andb_true_iff in W as [W1 W2]. exists a, e. split; [exact E|]. split; [destruct e; discriminate|]. split; [exact W2|reflexivity].
    - intros (a & e & -> & He & W & ->). rewrite (last_dot a e (word_no_dot e (words_and e W))), W.
      destruct e; [congruence|reflexivity]. }
  intros f k. split; [apply A|]. unfold suffix2. split.
  - destruct (at_last_dot f) as [[a g]|] eqn:E; [|discriminate]. apply last_dot_app in E.
    destruct (filled g && _) eqn:W; [|discriminate]. intros K. apply A in K as (a' & e & -> & He & We & ->).
    apply andb_true_iff in W as [W1 W2]. exists a', e, g. split; [rewrite E, <- app_assoc; reflexivity|].
    repeat (split; [assumption|]). split; [destruct g; discriminate|]. split; [exact W2|reflexivity].
  - intros (a & e & g & -> & He & We & Hg & Wg & ->).
    replace (a ++ 46 :: e ++ 46 :: g) with ((a ++ 46 :: e) ++ 46 :: g) by (rewrite <- app_assoc; reflexivity).
    rewrite last_dot, Wg.
    + destruct g; [congruence|]. cbn [filled andb]. apply A. exists a, e. repeat (split; [reflexivity || assumption|]). reflexivity.
    + apply word_no_dot, Forall_forall. rewrite forallb_forall in Wg. intros c Hc. specialize (Wg c Hc).
      apply orb_true_iff in Wg as [Wg|Wg]; [left; exact Wg|right; apply N.eqb_eq, Wg].
Qed.
Print Assumptions C81_suffixes.

(** C81: the entry for wasm changes the types of no other files than those with this suffix, and those with a suffix
    after it that WEBrick does not know *)
Theorem C81_types : forall t f,
  let by_wasm := suffix1 f = Some wasm \/
    ((forall k, suffix1 f = Some k -> type_of t k = None) /\ suffix2 f = Some wasm) in
  (by_wasm -> mime_type f (server_types t) = application_wasm) /\ (~ by_wasm -> mime_type f (server_types t) = mime_type f t).
Proof.
  intros t f by_wasm. subst by_wasm. unfold mime_type. split.
  - intros [E|[H E]].
    + rewrite E, type_merged, (proj2 (same_name_eq wasm wasm) eq_refl). reflexivity.
    + rewrite E. rewrite (type_merged t wasm), (proj2 (same_name_eq wasm wasm) eq_refl). destruct (suffix1 f) as [k|]; [|reflexivity].
      rewrite type_merged. destruct (same_name wasm k); [reflexivity|]. rewrite (H k eq_refl). reflexivity.
  - intros N. destruct (suffix1 f) as [k|] eqn:E1.
    + rewrite type_merged, same_name_neq by (intros <-; apply N; left; reflexivity).
      destruct (type_of t k) as [v|] eqn:Ek; [reflexivity|]. destruct (suffix2 f) as [k2|] eqn:E2; [|reflexivity].
      rewrite type_merged, same_name_neq; [reflexivity|]. intros <-. apply N. right. split; [|reflexivity].
      intros k' K. injection K as <-. exact Ek.
    + destruct (suffix2 f) as [k2|] eqn:E2; [|reflexivity].
      rewrite type_merged, same_name_neq; [reflexivity|]. intros <-. apply N. right. split; [discriminate|reflexivity].
Qed.
Print Assumptions C81_types.

(** C81: the answer to a request for demo.wasm, as text; C81_suffixes is about the same suffix *)
Definition bytes (s : string) : list N := map Strings.Byte.to_N (list_byte_of_string s).
Theorem C81_answer : forall t files error body, files (bytes "demo.wasm"%string) = Some body ->
  serve (server_types t) files error (bytes "demo.wasm"%string) = (200, bytes "application/wasm"%string, body) /\
  wasm = bytes "wasm"%string /\ demo_wasm = bytes "demo.wasm"%string /\ octet_stream = bytes "application/octet-stream"%string.
Proof.
  intros t files error body H. change (bytes "demo.wasm"%string) with demo_wasm in *. change (bytes "application/wasm"%string) with application_wasm.
  split; [|repeat split]. unfold serve. rewrite H. change (hidden demo_wasm) with false. cbv iota.
  rewrite (proj1 (C81_types t demo_wasm)) by (left; reflexivity). reflexivity.
Qed.
Print Assumptions C81_answer.

(** C81: whatever types WEBrick knows, a browser that visits the server, streaming or not, gets demo.wasm as the page
    wants it; C75_page then says what it shows *)
Theorem C81_served : forall streaming t files error engine,
  files demo_wasm = Some demo_file -> (forall w, valid demo_file w -> fits w -> engine demo_file = Some w) ->
  gets_demo (visit streaming (server_types t) files error engine).
Proof.
  intros streaming t files error engine Hf He. exists true. unfold visit. cbn [b_fetch b_streaming b_engine].
  split; [|split; [reflexivity|exact He]]. unfold serve. rewrite Hf. change (hidden demo_wasm) with false. cbv iota.
  unfold fetched. rewrite (proj1 (C81_types t demo_wasm)) by (left; reflexivity). reflexivity.
Qed.
Print Assumptions C81_served.

(** C81: without the entry for wasm, a streaming browser loads nothing from a WEBrick that does not know the type *)
Theorem C81_entry_needed : forall t files error engine p q,
  type_of t wasm = None -> (loads (visit true t files error engine) p q <-> q = p).
Proof.
  intros t files error engine p q Ht. apply C75_rejected. unfold load_module, visit. cbn [b_fetch b_streaming b_engine].
  unfold fetched, serve.
  assert (M : mime_type demo_wasm t = octet_stream).
  { unfold mime_type. change (suffix1 demo_wasm) with (Some wasm). change (suffix2 demo_wasm) with (@None name). cbv beta iota. rewrite Ht. reflexivity. }
  destruct (files demo_wasm) as [body|]; [|reflexivity]. change (hidden demo_wasm) with false. cbv iota. rewrite M. reflexivity.
Qed.
Print Assumptions C81_entry_needed.

(** C81: when the file is missing, a browser shows nothing, unless it does not stream and takes the page about the error
    for a module *)
Theorem C81_missing : forall streaming t files error engine p q,
  files demo_wasm = None -> (streaming = false -> engine error = None) -> (loads (visit streaming t files error engine) p q <-> q = p).
Proof.
  intros streaming t files error engine p q Hf He. apply C75_rejected. unfold load_module, visit. cbn [b_fetch b_streaming b_engine].
  unfold fetched, serve. rewrite Hf. destruct streaming; [reflexivity|]. exact (He eq_refl).
Qed.
Print Assumptions C81_missing.

(** demo.WASM; index.html; demo.wasm.br, which has the type of demo.wasm if WEBrick does not know br; a name without dot *)
Example C81_case :
  let html : name := [104; 116; 109; 108] in let t : types := [(html, text_html)] in
  mime_type [100; 46; 87; 65; 83; 77] (server_types t) = application_wasm /\
  mime_type (105 :: 46 :: html) (server_types t) = text_html /\
  mime_type (demo_wasm ++ [46; 98; 114]) (server_types t) = application_wasm /\
  mime_type (demo_wasm ++ [46; 98; 114]) t = octet_stream /\
  mime_type [100] (server_types t) = octet_stream /\
  hidden [46; 104; 116; 120] = true /\ hidden demo_wasm = false /\ type_of t wasm = None.
Proof. vm_compute. repeat split. Qed.
