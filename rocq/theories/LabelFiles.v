(** * Proofs: the comments of a generated file name the clusters and offsets of its tables *)
From Coq Require Import ZArith String Permutation.
From Verif Require Import Prim PrimFacts Str FontDefs Codegen CodegenText SpecRust Render RenderLex RenderRead SpecCodegen SpecLabel.
From Verif Require Import SortProofs CgIndex CgFont CgMore LabelProofs.
Local Open Scope N_scope.
Local Open Scope list_scope.
Local Notation length := List.length.

Lemma ret_inj {A} (a b : A) : Ret a = Ret b -> a = b.
Proof. congruence. Qed.
Lemma ublock_dec (a b : ublock) : {a = b} + {a <> b}.
Proof. decide equality; apply N.eq_dec. Defined.

(** ** Hexadecimal names *)
Lemma parse_digits_chars s : forall acc n, parse_digits acc s = Some n -> ~ In 32 s.
Proof.
  induction s as [|b t IH]; intros acc n E; [intros []|]. cbn [parse_digits] in E.
  destruct (hex_digit b) as [d|] eqn:Ed; [|discriminate].
  cbv zeta in E. destruct (2 ^ 32 <=? 16 * acc + d); [discriminate|].
  intros [->|I]; [discriminate Ed|]. exact (IH _ _ E I).
Qed.
Lemma split_in sep s c : In c s -> c <> sep -> exists p, In p (split_on sep s) /\ In c p.
Proof.
  induction s as [|b t IH]; intros I N; [contradiction I|]. cbn [split_on]. destruct (N.eqb_spec b sep) as [->|Hb].
  - destruct I as [->|I]; [contradiction|]. destruct (IH I N) as (p & Ip & Ic). exists p. split; [right; exact Ip|exact Ic].
  - pose proof (split_on_nil sep t) as Hn. destruct (split_on sep t) as [|q qs]; [contradiction|].
    destruct I as [->|I]; [exists (c :: q); split; left; reflexivity|].
    destruct (IH I N) as (p & [->|Ip] & Ic); [exists (b :: p); split; [left; reflexivity|right; exact Ic]|].
    exists p. split; [right; exact Ip|exact Ic].
Qed.
Lemma hex_no_space hex cl : string_from_hex_gc hex = Ret cl -> ~ In 32 hex.
Proof.
  unfold string_from_hex_gc. intros E I. destruct (split_in 45 hex 32 I ltac:(lia)) as (p & Ip & Ic).
  revert cl E. induction (split_on 45 hex) as [|q qs IH]; intros cl E; [contradiction Ip|].
  cbn [map_res] in E. apply bind_ret_inv in E. destruct E as (c & Ec & E). apply bind_ret_inv in E. destruct E as (cs & Es & _).
  destruct Ip as [->|Ip]; [|exact (IH Ip _ Es)].
  destruct (parse_hex p) as [n|] eqn:Ep; [|discriminate]. unfold parse_hex in Ep. destruct p; [contradiction Ic|]. exact (parse_digits_chars _ _ _ Ep Ic).
Qed.
Lemma from_hex_ok hex cl : string_from_hex_gc hex = Ret cl -> cl <> [] /\ Forall (fun c => c < 0x110000) cl.
Proof.
  unfold string_from_hex_gc. intros E. split.
  - pose proof (split_on_nil 45 hex). destruct (split_on 45 hex) as [|p ps]; [contradiction|].
    cbn [map_res] in E. apply bind_ret_inv in E. destruct E as (c & _ & E). apply bind_ret_inv in E. destruct E as (cs & _ & E). injection E as <-. discriminate.
  - revert cl E. induction (split_on 45 hex) as [|p ps IH]; intros cl E; cbn [map_res] in E; [injection E as <-; constructor|].
    apply bind_ret_inv in E. destruct E as (c & Ec & E). apply bind_ret_inv in E. destruct E as (cs & Es & E). injection E as <-.
    constructor; [|exact (IH _ Es)]. destruct (parse_hex p) as [n|]; [|discriminate]. injection Ec as <-. unfold rune, is_char.
    destruct ((n <? 0xD800) || ((0xE000 <=? n) && (n <? 0x110000))) eqn:En; lia.
Qed.

(** ** Records *)
Lemma upto_char c w s : ~ In c w -> upto c (w ++ c :: s) = Some (w, s).
Proof.
  induction w as [|d w IH]; intros N; cbn [app upto]; [rewrite N.eqb_refl; reflexivity|].
  destruct (N.eqb_spec d c) as [->|]; [exfalso; apply N; left; reflexivity|]. rewrite IH; [reflexivity|]. intros I. apply N. right. exact I.
Qed.
Lemma read_record_line printable n hex cl : string_from_hex_gc hex = Ret cl ->
  read_record (lit "    // " ++ lit "[" ++ fmt_d n ++ lit "]: " ++ hex ++ lit " " ++ label_for_cluster printable cl) = Some (n, hex, cl).
Proof.
  intros E. destruct (from_hex_ok _ _ E) as [Hne Hs].
  change (lit "    // " ++ lit "[" ++ ?s) with (32 :: 32 :: 32 :: 32 :: 47 :: 47 :: 32 :: 91 :: s). unfold read_record.
  change (lit "]: " ++ ?s) with (93 :: 58 :: 32 :: s). pose proof (is_word_ne _ (is_word_d n)) as [_ W].
  rewrite (upto_word (fmt_d n) 93) by (assumption || reflexivity). rewrite literal_dec.
  change (lit " " ++ ?s) with (32 :: s). rewrite (upto_char 32 hex _ (hex_no_space _ _ E)).
  rewrite (read_label_back printable cl Hne Hs). reflexivity.
Qed.

Lemma word_line_shape ws : ws <> [] -> exists w s, forallb word_char w = true /\ is_digit (hd 0 w) = true /\ w <> [] /\
  join (lit ", ") (map (fun w => lit "0x" ++ fmt_08x w) ws) ++ lit "," = w ++ 44 :: s /\ (s = [] \/ exists t, s = 32 :: 48 :: t).
Proof.
  intros N. destruct ws as [|x ws]; [contradiction|]. exists (lit "0x" ++ fmt_08x x).
  pose proof (is_word_ne _ (is_word_08x x)) as [W1 W2]. destruct ws as [|y ws].
  - exists []. repeat split; try assumption. left. reflexivity.
  - exists (32 :: (lit "0x" ++ fmt_08x y) ++ match ws with [] => [] | _ => lit ", " ++ join (lit ", ") (map (fun w => lit "0x" ++ fmt_08x w) ws) end ++ lit ",").
    repeat split; try assumption.
    + cbn [map join]. destruct ws as [|z ws]; cbn [map]; rewrite <- !app_assoc; cbn [app]; reflexivity.
    + right. eexists. reflexivity.
Qed.
Lemma word_line_one ws : one_line (join (lit ", ") (map (fun w => lit "0x" ++ fmt_08x w) ws) ++ lit ",") = true.
Proof.
  rewrite one_line_app. rewrite join_one_line; [reflexivity|reflexivity|]. rewrite Forall_map. apply Forall_forall. intros w _.
  apply is_word_one_line, is_word_08x.
Qed.
Lemma row_word_line ws : ws <> [] -> read_row (lit "    " ++ join (lit ", ") (map (fun w => lit "0x" ++ fmt_08x w) ws) ++ lit ",") = None.
Proof.
  intros N. destruct (word_line_shape ws N) as (w & s & W & D & Ne & -> & S).
  destruct w as [|d w]; [contradiction|]. cbn [hd] in D. change (lit "    " ++ (d :: w) ++ ?s) with (32 :: 32 :: 32 :: 32 :: d :: (w ++ s)).
  unfold read_row. rewrite D. change (d :: w ++ ?s) with ((d :: w) ++ s). rewrite upto_word by (assumption || reflexivity).
  destruct S as [->|(t & ->)]; destruct (literal (d :: w)); reflexivity.
Qed.
Lemma record_word_line ws : ws <> [] -> read_record (lit "    " ++ join (lit ", ") (map (fun w => lit "0x" ++ fmt_08x w) ws) ++ lit ",") = None.
Proof.
  intros N. destruct (word_line_shape ws N) as (w & s & W & D & Ne & -> & S).
  destruct w as [|d w]; [contradiction|]. cbn [hd] in D. change (lit "    " ++ (d :: w) ++ ?s) with (32 :: 32 :: 32 :: 32 :: d :: (w ++ s)).
  unfold read_record. destruct d as [|p]; [reflexivity|]. do 6 (try (destruct p as [p|p|])); try reflexivity; discriminate D.
Qed.
Lemma found_words {A} (f : str -> option A) :
  (forall ws, ws <> [] -> f (lit "    " ++ join (lit ", ") (map (fun w => lit "0x" ++ fmt_08x w) ws) ++ lit ",") = None) -> f (lit "    ") = None ->
  forall fuel words s, found f (lit "    " ++ word_lines fuel words ++ nl ++ s) = found f s.
Proof.
  intros Hf H0. induction fuel as [|fuel IH]; intros words s; cbn [word_lines].
  - cbn [app]. rewrite found_one by reflexivity. rewrite H0. reflexivity.
  - destruct words as [|w words]; [cbn [app]; rewrite found_one by reflexivity; rewrite H0; reflexivity|].
    remember (w :: words) as ws eqn:E. assert (N : firstn 8 ws <> []) by (rewrite E; discriminate).
    set (a := join _ _) in *. 
    assert (L : one_line (lit "    " ++ a ++ lit ",") = true) by (rewrite one_line_app; unfold a; rewrite word_line_one; reflexivity).
    destruct (skipn 8 ws) as [|w' rest'] eqn:Es.
    + rewrite app_nil_r, app_assoc, found_one by exact L. unfold a. rewrite Hf by exact N. reflexivity.
    + rewrite <- Es. clear Es. rewrite <- !app_assoc.
      replace (lit "    " ++ a ++ lit "," ++ nl ++ lit "    " ++ word_lines fuel (skipn 8 ws) ++ nl ++ s)
        with ((lit "    " ++ a ++ lit ",") ++ nl ++ lit "    " ++ word_lines fuel (skipn 8 ws) ++ nl ++ s) by (rewrite <- !app_assoc; reflexivity).
      rewrite found_one by exact L. unfold a at 1. rewrite Hf by exact N. exact (IH (skipn 8 ws) s).
Qed.

Section Code.
  Context (printable : N -> bool) (Hp : printable 10 = false).

  Lemma code_found {A} (f : str -> option A) (x : N -> str -> str -> list A) pl : forall n code cls s,
    (forall ws, ws <> [] -> f (lit "    " ++ join (lit ", ") (map (fun w => lit "0x" ++ fmt_08x w) ws) ++ lit ",") = None) -> f (lit "    ") = None ->
    (forall n hex cl, string_from_hex_gc hex = Ret cl ->
       opt_list (f (lit "    // " ++ lit "[" ++ fmt_d n ++ lit "]: " ++ hex ++ lit " " ++ label_for_cluster printable cl)) = x n hex cl) ->
    code_text printable n pl = Ret code -> Forall2 (fun p cl => string_from_hex_gc (cs_hex (bp_cs p)) = Ret cl) pl cls ->
    found f (code ++ s) = concat (map (fun h => x (fst h) (fst (snd h)) (snd (snd h))) (combine (offsets_from n (map bp_words pl)) (combine (map (fun p => cs_hex (bp_cs p)) pl) cls))) ++ found f s.
  Proof.
    induction pl as [|p pl IH]; intros n code cls s H1 H2 H3 E F; cbn [code_text] in E.
    - injection E as <-. inversion F; subst. reflexivity.
    - inversion F as [|? cl ? cls' Ec F']; subst. unfold cluster_of in E. rewrite Ec in E. cbn [bind] in E.
      apply bind_ret_inv in E. destruct E as (more & Em & E). apply ret_inj in E. subst code.
      cbn [map offsets_from combine concat fst snd]. rewrite <- !app_assoc, <- (IH _ _ _ s H1 H2 H3 Em F').
      unfold convert_pattern_to_rust. set (label := label_for_cluster printable cl).
      assert (L : one_line (lit "    // " ++ lit "[" ++ fmt_d n ++ lit "]: " ++ cs_hex (bp_cs p) ++ lit " " ++ label) = true).
      { unfold label. rewrite !one_line_app, fmt_d_line, (hex_one_line _ _ Ec), (label_one_line printable cl Hp). reflexivity. }
      replace ((lit "    // " ++ (lit "[" ++ fmt_d n ++ lit "]: " ++ cs_hex (bp_cs p) ++ lit " " ++ label) ++ nl ++ lit "    " ++ word_lines (length (bp_words p)) (bp_words p) ++ nl) ++ more ++ s)
        with ((lit "    // " ++ lit "[" ++ fmt_d n ++ lit "]: " ++ cs_hex (bp_cs p) ++ lit " " ++ label) ++ nl ++ lit "    " ++ word_lines (length (bp_words p)) (bp_words p) ++ nl ++ more ++ s)
        by (rewrite <- !app_assoc; reflexivity).
      rewrite found_one by exact L. unfold label. rewrite (H3 n (cs_hex (bp_cs p)) cl Ec). f_equal. apply found_words; assumption.
  Qed.
  Lemma code_rows pl n code cls s : code_text printable n pl = Ret code ->
    Forall2 (fun p cl => string_from_hex_gc (cs_hex (bp_cs p)) = Ret cl) pl cls -> rows (code ++ s) = rows s.
  Proof.
    intros E F. unfold rows. rewrite (code_found read_row (fun _ _ _ => []) pl n code cls s); [|exact row_word_line|reflexivity|reflexivity|exact E|exact F].
    match goal with |- concat (map _ ?l) ++ _ = _ => induction l as [|y ys IH]; [reflexivity|exact IH] end.
  Qed.
  Lemma code_records pl n code cls s : code_text printable n pl = Ret code ->
    Forall2 (fun p cl => string_from_hex_gc (cs_hex (bp_cs p)) = Ret cl) pl cls ->
    records (code ++ s) = map (fun h => (fst h, fst (snd h), snd (snd h)))
      (combine (offsets_from n (map bp_words pl)) (combine (map (fun p => cs_hex (bp_cs p)) pl) cls)) ++ records s.
  Proof.
    intros E F. unfold records.
    rewrite (code_found read_record (fun n hex cl => [(n, hex, cl)]) pl n code cls s); [|exact record_word_line|reflexivity| |exact E|exact F].
    - f_equal. match goal with |- concat (map _ ?l) = _ => induction l as [|y ys IH]; [reflexivity|] end. cbn [map concat app]. f_equal. exact IH.
    - intros m hex cl Eh. rewrite (read_record_line printable m hex cl Eh). reflexivity.
  Qed.
End Code.

(** ** Files *)
Lemma aliases_stored seed (P : N -> Prop) stored pairs stored' : hash_aliases seed stored pairs stored' -> Forall (fun c => P (snd c)) stored ->
  exists offs, List.length offs = List.length pairs /\ Forall P offs /\ stored' = stored ++ combine (map snd pairs) offs.
Proof.
  intros W. induction W as [stored|stored canon alias off more stored' cl k I1 I2 I3 I4 W IH]; intros HP.
  - exists []. split; [reflexivity|]. split; [constructor|]. rewrite app_nil_r. reflexivity.
  - assert (Po : P off).
    { apply filter_In in I3. rewrite Forall_forall in HP. exact (HP _ (proj1 I3)). }
    destruct IH as (offs & L & F & ->).
    { apply Forall_app. split; [exact HP|]. constructor; [exact Po|constructor]. }
    exists (off :: offs). split; [cbn [List.length]; rewrite L; reflexivity|]. split; [constructor; assumption|].
    cbn [map combine snd]. rewrite <- app_assoc. reflexivity.
Qed.

Section File.
  Context (printable : N -> bool) (Hp : printable 10 = false).
  Context (f : fontspec) (legal : str) (Hn : one_line (lit (fs_name f)) = true) (Hr : rows legal = []) (Hc : records legal = []).

  Lemma keys_known g stored seed kb : holds seed (gs_index g) stored -> In kb (index_keys g) ->
    (one_line (find_ident (fst kb)) = true /\ one_line (hash_ident (fst kb)) = true /\ one_line (offset_ident (fst kb)) = true) /\
    Permutation (snd kb) (map (entry_of seed) (in_block (fst kb) stored)) /\ In (fst kb) known_blocks.
  Proof.
    intros H I. pose proof (Permutation_in _ (sort_perm (fun kb : ublock * block_index => fst (fst kb)) (gs_index g)) I) as I'.
    destruct kb as [k b]. cbn [fst snd]. assert (Ik : In k known_blocks).
    { apply (ho_known _ _ _ H). change k with (fst (k, b)). apply in_map, I'. }
    split; [|split; [|exact Ik]].
    - destruct (known_words k Ik) as (W1 & W2 & W3). repeat split; apply is_word_one_line; assumption.
    - rewrite <- (map_get_in (gs_index g) k b (ho_nodup _ _ _ H) I'). apply (ho_perm _ _ _ H), Ik.
  Qed.

  Lemma file_comments g stored seed n code pl cls :
    holds seed (gs_index g) stored -> Forall (fun p => fst p <> [] /\ Forall (fun c => c < 0x110000) (fst p)) stored ->
    code_text printable n pl = Ret code -> Forall2 (fun p cl => string_from_hex_gc (cs_hex (bp_cs p)) = Ret cl) pl cls ->
    let text := font_file_text printable f legal g code seed in
    rows text = flat_map (fun kb => map (fun e => (e_hash e, e_cluster e)) (snd kb) ++ map (fun e => (e_offset e, e_cluster e)) (snd kb)) (index_keys g) /\
    records text = map (fun h => (fst h, fst (snd h), snd (snd h)))
      (combine (offsets_from n (map bp_words pl)) (combine (map (fun p => cs_hex (bp_cs p)) pl) cls)).
  Proof.
    intros H Hs Ec F text.
    assert (K : Forall (fun kb => (one_line (find_ident (fst kb)) = true /\ one_line (hash_ident (fst kb)) = true /\ one_line (offset_ident (fst kb)) = true)
                                  /\ clusters_ok (snd kb)) (index_keys g)).
    { apply Forall_forall. intros kb I. destruct (keys_known g stored seed kb H I) as (W & P & _). split; [exact W|].
      unfold clusters_ok. apply Forall_forall. intros e Ie. apply (Permutation_in _ P) in Ie. apply in_map_iff in Ie. destruct Ie as (p & <- & Ip).
      unfold in_block in Ip. apply filter_In in Ip. rewrite Forall_forall in Hs. exact (Hs p (proj1 Ip)). }
    assert (K1 : Forall (fun kb => one_line (find_ident (fst kb)) = true) (index_keys g)) by (eapply Forall_impl; [|exact K]; cbn beta; tauto).
    assert (K2 : Forall (fun kb => one_line (hash_ident (fst kb)) = true) (index_keys g)) by (eapply Forall_impl; [|exact K]; cbn beta; tauto).
    unfold text, font_file_text. cbv zeta. split.
    - unfold rows in *. pose proof quiet_row as Q.
      rewrite (found_notice _ Q), (found_head _ Q), (rest_arms _ Q), (rest_arms_end _ Q) by assumption.
      transitivity (flat_map (fun kb => map (fun e => (e_hash e, e_cluster e)) (snd kb) ++ map (fun e => (e_offset e, e_cluster e)) (snd kb)) (index_keys g)
        ++ rows (data_text (gs_len g) code ++ tests_text (index_keys g))).
      + clear - K Hp. revert K. generalize (data_text (gs_len g) code ++ tests_text (index_keys g)). generalize (index_keys g). intros keys s K.
        induction K as [|[k b] keys [(W1 & W2 & W3) Wc] _ IH]; [reflexivity|]. cbn [flat_map fst snd] in *. rewrite <- app_assoc.
        fold (rows (block_text printable (k, b) ++ flat_map (block_text printable) keys ++ s)). rewrite block_rows by assumption.
        fold (rows (flat_map (block_text printable) keys ++ s)) in IH. rewrite IH, <- !app_assoc. reflexivity.
      + unfold rows. rewrite (found_data _ Q). fold (rows (code ++ lit "];" ++ nl ++ nl ++ tests_text (index_keys g))).
        rewrite (code_rows printable Hp pl n code cls _ Ec F). unfold rows. rewrite (found_data_end _ Q), (found_tests _ Q) by exact K2. apply app_nil_r.
    - unfold records in *. pose proof quiet_record as Q.
      rewrite (found_notice _ Q), (found_head _ Q), (rest_arms _ Q), (rest_arms_end _ Q) by assumption.
      transitivity (records (data_text (gs_len g) code ++ tests_text (index_keys g))).
      + clear - K Hp. revert K. generalize (data_text (gs_len g) code ++ tests_text (index_keys g)). generalize (index_keys g). intros keys s K.
        induction K as [|[k b] keys [(W1 & W2 & W3) Wc] _ IH]; [reflexivity|]. cbn [flat_map fst snd] in *. rewrite <- app_assoc.
        fold (records (block_text printable (k, b) ++ flat_map (block_text printable) keys ++ s)). rewrite block_records by assumption. exact IH.
      + unfold records. rewrite (found_data _ Q). fold (records (code ++ lit "];" ++ nl ++ nl ++ tests_text (index_keys g))).
        rewrite (code_records printable Hp pl n code cls _ Ec F). unfold records. rewrite (found_data_end _ Q), (found_tests _ Q) by exact K2. apply app_nil_r.
  Qed.

  Lemma generated_comments img csl al text : generate_text printable f legal img csl al = Ret text ->
    exists pl cls aliases offs blocks, pattern_list img f csl = Ret pl /\
      Forall2 (fun cs cl => string_from_hex_gc (cs_hex cs) = Ret cl) csl cls /\
      Forall2 (fun a cl => string_from_hex_gc (alias_hex a) = Ret cl) al aliases /\ length offs = length aliases /\
      Forall (fun o => In o (offsets_from 0 (map bp_words pl))) offs /\
      records text = map (fun h => (fst h, fst (snd h), snd (snd h)))
        (combine (offsets_from 0 (map bp_words pl)) (combine (map cs_hex csl) cls)) /\
      rows text = flat_map (fun b => map (fun co => (go_murmur3 (fst co) (fs_seed f), fst co)) b ++ map (fun co => (snd co, fst co)) b) blocks /\
      (forall co, In co (concat blocks) <-> In co (combine cls (offsets_from 0 (map bp_words pl)) ++ combine aliases offs)).
  Proof.
    unfold generate_text. intros E. apply bind_ret_inv in E. destruct E as (pl & Ep & E). apply bind_ret_inv in E. destruct E as (g0 & Eg & E).
    apply bind_ret_inv in E. destruct E as (code & Ec & E). apply bind_ret_inv in E. destruct E as (g & Ea & E). apply ret_inj in E. subst text.
    destruct (new_set_inv _ _ _ Eg) as (cls & F & _ & _ & H0). unfold add_aliases in Ea. apply bind_ret_inv in Ea. destruct Ea as (ix & Ea & Eg'). apply ret_inj in Eg'. subst g.
    destruct (add_aliases_inv _ _ _ _ _ H0 Ea) as (pairs & stored' & Fa & W & H). destruct (aliases_stored _ (fun o => In o (offsets_from 0 (map bp_words pl))) _ _ _ W) as (offs & Lo & Fo & Es).
    { apply Forall_forall. intros [c o] I. exact (in_combine_r _ _ _ _ I). }
    assert (Fcs : Forall2 (fun cs cl => string_from_hex_gc (cs_hex cs) = Ret cl) csl cls).
    { rewrite <- (pattern_list_cs _ _ _ _ Ep). clear - F. induction F; cbn [map]; constructor; assumption. }
    assert (Fal : Forall2 (fun a cl => string_from_hex_gc (alias_hex a) = Ret cl) al (map snd pairs)).
    { clear - Fa. induction Fa as [|a p al pairs [_ Hp] _ IH]; cbn [map]; constructor; assumption. }
    assert (Hst : Forall (fun p => fst p <> [] /\ Forall (fun c => c < 0x110000) (fst p)) stored').
    { rewrite Es. apply Forall_forall. intros [c o] I. cbn [fst]. apply in_app_or in I.
      assert (X : In c cls \/ In c (map snd pairs)) by (destruct I as [I|I]; apply in_combine_l in I; auto).
      assert (Y : exists hex, string_from_hex_gc hex = Ret c).
      { destruct X as [X|X].
        - clear - X Fcs. induction Fcs as [|cs cl csl cls Hh _ IH]; [contradiction X|]. destruct X as [->|X]; [eexists; exact Hh|exact (IH X)].
        - clear - X Fal. induction Fal as [|a cl al cls Hh _ IH]; [contradiction X|]. destruct X as [->|X]; [eexists; exact Hh|exact (IH X)]. }
      destruct Y as (hex & Y). exact (from_hex_ok _ _ Y). }
    set (g := GlyphSet (gs_code g0) (gs_len g0) ix) in *.
    destruct (file_comments g stored' (fs_seed f) 0 code pl cls H Hst Ec F) as [R1 R2]. cbv zeta in R1, R2.
    exists pl, cls, (map snd pairs), offs, (map (fun kb => map (fun e => (e_cluster e, e_offset e)) (snd kb)) (index_keys g)).
    split; [exact Ep|]. split; [exact Fcs|]. split; [exact Fal|]. split; [rewrite map_length; exact Lo|]. split; [exact Fo|]. split.
    { rewrite R2. rewrite <- (map_map bp_cs cs_hex pl), (pattern_list_cs _ _ _ _ Ep). reflexivity. }
    split.
    { rewrite R1, !flat_map_concat_map, map_map. f_equal. apply map_ext_in. intros kb I. destruct (keys_known g stored' (fs_seed f) kb H I) as (_ & P & _).
      rewrite !map_map. cbn [fst snd]. f_equal. apply map_ext_in. intros e Ie. apply (Permutation_in _ P) in Ie. apply in_map_iff in Ie.
      destruct Ie as (p & <- & _). reflexivity. }
    intros co. rewrite <- Es. rewrite in_concat. split.
    - intros (b & Ib & Ico). apply in_map_iff in Ib. destruct Ib as (kb & <- & Ikb). apply in_map_iff in Ico. destruct Ico as (e & <- & Ie).
      destruct (keys_known g stored' (fs_seed f) kb H Ikb) as (_ & P & _). apply (Permutation_in _ P) in Ie. apply in_map_iff in Ie. destruct Ie as ([c o] & <- & Ip).
      apply filter_In in Ip. exact (proj1 Ip).
    - intros I. pose proof (ho_starts _ _ _ H) as St. rewrite Forall_forall in St. destruct (St co I) as (k & Ik & Sk).
      pose proof (ho_perm _ _ _ H k Ik) as P. assert (Ie : In (entry_of (fs_seed f) co) (map_get ix k)).
      { apply (Permutation_in _ (Permutation_sym P)). apply in_map, filter_In. split; assumption. }
      destruct (in_dec ublock_dec k (map fst ix)) as [Iki|Nk].
      2:{ rewrite map_get_out in Ie by exact Nk. contradiction Ie. }
      apply in_map_iff in Iki. destruct Iki as ([k' b] & Ek & Ikb). cbn [fst] in Ek. subst k'.
      rewrite (map_get_in ix k b (ho_nodup _ _ _ H) Ikb) in Ie.
      exists (map (fun e => (e_cluster e, e_offset e)) b). split.
      + apply in_map_iff. exists (k, b). split; [reflexivity|].
        exact (Permutation_in _ (Permutation_sym (sort_perm (fun kb : ublock * block_index => fst (fst kb)) (gs_index g))) Ikb).
      + apply in_map_iff. exists (entry_of (fs_seed f) co). split; [destruct co; reflexivity|exact Ie].
  Qed.
End File.
