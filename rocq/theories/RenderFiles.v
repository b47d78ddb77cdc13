(** * The committed font files are the text the generator writes *)
From Coq Require Import ZArith String Ascii Permutation.
From Verif Require Import Prim PrimFacts Str FontDefs SpecPaint SpecCodegen SpecSheet SpecIndex Codegen CodegenText FontCheck Fonts.
From Verif Require Import SortProofs CgIndex CgFont CgGenerate CgMore SheetCheck SheetIndex SheetCells Sheets SheetFonts.
From Verif Require Import Render SpecRust RenderLex RenderParse RenderRead Config TextInputs TextBold TextRegular TextSmall Files.
Local Open Scope N_scope.
Local Open Scope list_scope.
Local Notation length := List.length.

(** ** The text depends on [printable] only for the characters of its clusters *)
Definition agree (p q : N -> bool) (c : str) : Prop :=
  c = [0xAD] \/ c = [0xA0] \/ forall r, In r c -> p r = q r.

Lemma label_ext p q c : agree p q c -> label_for_cluster p c = label_for_cluster q c.
Proof.
  intros [->|[->|H]]; [reflexivity|reflexivity|].
  assert (E : fmt_q p c = fmt_q q c).
  { unfold fmt_q. f_equal. f_equal. induction c as [|r c IH]; [reflexivity|]. cbn [flat_map].
    rewrite IH by (intros x I; apply H; right; exact I). f_equal.
    unfold quote_rune. rewrite (H r (or_introl eq_refl)). reflexivity. }
  unfold label_for_cluster. rewrite E. reflexivity.
Qed.

Lemma code_text_ext p q pl : forall n,
  Forall (fun bp => forall cl, cluster_of (bp_cs bp) = Ret cl -> agree p q cl) pl ->
  code_text p n pl = code_text q n pl.
Proof.
  induction pl as [|bp pl IH]; intros n F; [reflexivity|]. inversion F as [|x y H1 H2]; subst.
  cbn [code_text]. destruct (cluster_of (bp_cs bp)) as [cl|] eqn:E; [|reflexivity]. cbn [bind].
  rewrite (label_ext p q cl (H1 cl eq_refl)), (IH _ H2). reflexivity.
Qed.

Lemma block_text_ext p q kb : Forall (fun e => agree p q (e_cluster e)) (snd kb) -> block_text p kb = block_text q kb.
Proof.
  intros F. destruct kb as [k dex]. cbn [snd] in F. unfold block_text.
  assert (E1 : code_for_hashes p dex = code_for_hashes q dex).
  { unfold code_for_hashes. f_equal. apply map_ext_Forall. eapply Forall_impl; [|exact F]. intros e H.
    rewrite (label_ext p q _ H). reflexivity. }
  assert (E2 : code_for_offsets p dex = code_for_offsets q dex).
  { unfold code_for_offsets. f_equal. apply map_ext_Forall. eapply Forall_impl; [|exact F]. intros e H.
    rewrite (label_ext p q _ H). reflexivity. }
  rewrite E1, E2. reflexivity.
Qed.

Lemma flat_map_ext_in {A B} (f g : A -> list B) l : (forall a, In a l -> f a = g a) -> flat_map f l = flat_map g l.
Proof.
  induction l as [|a l IH]; intros H; [reflexivity|]. cbn [flat_map].
  rewrite (H a (or_introl eq_refl)), IH by (intros b I; apply H; right; exact I). reflexivity.
Qed.

Lemma bind_ext {A B} (m : res A) (f g : A -> res B) : (forall a, m = Ret a -> f a = g a) -> bind m f = bind m g.
Proof. intros H. destruct m as [a|]; [exact (H a eq_refl)|reflexivity]. Qed.

Lemma generate_text_ext p q fs legal img csl al :
  Forall (fun cs => forall cl, cluster_of cs = Ret cl -> agree p q cl) csl ->
  Forall (fun a => forall cl, string_from_hex_gc (alias_hex a) = Ret cl -> agree p q cl) al ->
  generate_text p fs legal img csl al = generate_text q fs legal img csl al.
Proof.
  intros Fc Fa. unfold generate_text. apply bind_ext. intros pl Epl.
  pose proof (pattern_list_cs _ _ _ _ Epl) as Ec. apply bind_ext. intros g0 Eg.
  assert (Fp : Forall (fun bp => forall cl, cluster_of (bp_cs bp) = Ret cl -> agree p q cl) pl).
  { rewrite <- Ec in Fc. rewrite Forall_map in Fc. exact Fc. }
  rewrite (code_text_ext p q pl 0 Fp). apply bind_ext. intros code _. apply bind_ext. intros g Ea.
  apply (f_equal (@Ret str)).
  destruct (new_set_inv _ _ _ Eg) as (cls & Fcl & _ & _ & Hh0).
  unfold add_aliases in Ea. apply bind_ret_inv in Ea. destruct Ea as (ix & Ei & Ea). injection Ea as <-.
  destruct (add_aliases_inv _ _ _ _ _ Hh0 Ei) as (pairs & stored & Fpairs & W & Hh).
  assert (Fs : Forall (fun s => agree p q (fst s)) stored).
  { pose proof (hash_aliases_fst _ _ _ _ W) as E.
    assert (G : Forall (agree p q) (map fst stored)).
    { rewrite E. apply Forall_app. split.
      - rewrite combine_fst by (rewrite offsets_length, map_length; symmetry; exact (Forall2_length' _ _ _ Fcl)).
        clear - Fp Fcl. induction Fcl as [|bp cl pl cls E F IH]; [constructor|]. inversion Fp as [|x y H1 H2]; subst.
        constructor; [exact (H1 cl E)|exact (IH H2)].
      - clear - Fa Fpairs. induction Fpairs as [|a pr al pairs [_ E] F IH]; [constructor|].
        inversion Fa as [|x y H1 H2]; subst. cbn [map]. constructor; [exact (H1 _ E)|exact (IH H2)]. }
    rewrite Forall_map in G. exact G. }
  unfold font_file_text. cbv zeta. do 4 apply (f_equal (app _)). apply (f_equal (fun x => x ++ _)).
  apply flat_map_ext_in. intros kb I. apply block_text_ext.
  assert (I' : In kb ix).
  { eapply Permutation_in; [apply sort_perm|exact I]. }
  assert (Ik : In (fst kb) known_blocks) by (apply (ho_known _ _ _ Hh), in_map, I').
  assert (G : map_get ix (fst kb) = snd kb).
  { pose proof (ho_nodup _ _ _ Hh) as D. clear - I' D. induction ix as [|[k b] t IH]; [destruct I'|].
    cbn [map fst] in D. inversion D as [|x y D1 D2]; subst. cbn [map_get]. destruct I' as [<-|I'].
    - cbn [fst snd]. assert (ublock_eqb k k = true) as -> by (apply ublock_eqb_spec; reflexivity). reflexivity.
    - destruct (ublock_eqb k (fst kb)) eqn:Eq; [|exact (IH I' D2)]. apply ublock_eqb_spec in Eq. exfalso.
      apply D1. rewrite Eq. apply in_map. exact I'. }
  pose proof (ho_perm _ _ _ Hh (fst kb) Ik) as P. rewrite G in P. rewrite Forall_forall. intros e Ie.
  eapply Permutation_in in Ie; [|exact P]. apply in_map_iff in Ie. destruct Ie as (s & <- & Is).
  cbn [entry_of e_cluster]. apply in_block_in in Is. rewrite Forall_forall in Fs. apply Fs, Is.
Qed.

(** ** From records *)
Definition text_of_records (p : N -> bool) (fs : fontspec) (legal : list N) (csl : list charspec) (al : list gcalias)
  (rs : list (list N)) : res (list N) :=
  let pl := map (fun rc => BlitPattern (fst rc) (snd rc)) (combine rs csl) in
  g <- new_glyph_set_from pl (fs_seed fs) ;;
  code <- code_text p 0 pl ;;
  g <- add_aliases g al (fs_seed fs) ;;
  Ret (font_file_text p fs legal g code (fs_seed fs)).

Lemma generate_text_records p fs legal img csl al pl : pattern_list img fs csl = Ret pl ->
  generate_text p fs legal img csl al = text_of_records p fs legal csl al (map bp_words pl).
Proof.
  intros E. unfold generate_text, text_of_records. rewrite E. cbn [bind]. rewrite <- (pattern_list_cs _ _ _ _ E).
  assert (Epl : map (fun rc => BlitPattern (fst rc) (snd rc)) (combine (map bp_words pl) (map bp_cs pl)) = pl).
  { clear. induction pl as [|[w c] pl IH]; [reflexivity|]. cbn [map combine fst snd bp_words bp_cs]. rewrite IH. reflexivity. }
  rewrite Epl. reflexivity.
Qed.

(** ** The three smaller files *)
Definition legal_of (gs : glyphset) : list N :=
  trim_space (text_of match gs with
                      | Emoji => twemoji_legal_txt | Hanzi => noto_sans_sc_legal_txt
                      | Bold => chicago_legal_txt | Regular | Small => geneva_legal_txt
                      end).

Definition file_okb (gs : glyphset) (file : list N) : bool :=
  match records (length (font_charspecs gs)) (concat (f_data (blitstr_fonts gs))) with
  | None => false
  | Some rs =>
      match text_of_records (fun _ => true) (font_spec gs) (legal_of gs) (font_charspecs gs) (font_gcaliases gs) rs with
      | Ret t => eqlist t file
      | Panic => false
      end
  end.

Lemma bold_text : file_okb Bold (text_of bold_rs) = true. Proof. vm_cast_no_check (eq_refl true). Qed.
Lemma regular_text : file_okb Regular (text_of regular_rs) = true. Proof. vm_cast_no_check (eq_refl true). Qed.
Lemma small_text : file_okb Small (text_of small_rs) = true. Proof. vm_cast_no_check (eq_refl true). Qed.

(** The records are those of the sheet *)
Lemma sheet_records gs outside rs :
  records (length (font_charspecs gs)) (concat (f_data (blitstr_fonts gs))) = Some rs ->
  exists pl, pattern_list (sheet_of outside gs) (font_spec gs) (font_charspecs gs) = Ret pl /\ map bp_words pl = rs.
Proof.
  intros Er. pose proof (sheets_checked gs) as H. unfold sheet_fontb in H. cbv zeta in H.
  rewrite !andb_true_iff in H. destruct H as [[[[[[[[H1 H2] H3] H4] H5] H6] H7] H8] H9].
  rewrite Er in H9. apply andb_prop in H9. destruct H9 as [H9 _].
  exact (records_sound _ _ _ outside _ rs H1 H9).
Qed.

Lemma file_sound gs file outside : file_okb gs file = true ->
  generate_text (fun _ => true) (font_spec gs) (legal_of gs) (sheet_of outside gs) (font_charspecs gs) (font_gcaliases gs)
  = Ret file.
Proof.
  unfold file_okb. intros H. destruct (records _ _) as [rs|] eqn:Er; [|discriminate].
  destruct (sheet_records gs outside rs Er) as (pl & Epl & Ew).
  rewrite (generate_text_records _ _ _ _ _ _ pl Epl), Ew.
  destruct (text_of_records _ _ _ _ _ _) as [t|]; [|discriminate]. apply eqlist_eq in H. subst. reflexivity.
Qed.

Lemma latin_generated gs file outside : latin_file gs = Some file ->
  generate_text (fun _ => true) (font_spec gs) (legal_of gs) (sheet_of outside gs) (font_charspecs gs) (font_gcaliases gs)
  = Ret file.
Proof.
  intros I. apply file_sound.
  assert (G : match latin_file gs with Some file => file_okb gs file = true | None => True end)
    by exact (match gs with
              | Emoji => Logic.I | Hanzi => Logic.I
              | Bold => bold_text | Regular => regular_text | Small => small_text
              end).
  rewrite I in G. exact G.
Qed.
