(** * The generated file, read back as a font *)
From Coq Require Import ZArith String Ascii Permutation Sorted.
From Verif Require Import Prim PrimFacts Str FontDefs Codegen SpecCodegen SortProofs HashProofs CgIndex CgFont SheetIndex
  Render SpecRust RenderLex RenderParse.
Local Open Scope N_scope.
Local Open Scope list_scope.
Local Notation length := List.length.

(** ** The whole text *)
Definition file_toks (height seed : N) (arms : list arm) (items : list (item * list str)) (len : N) (ws : list str)
  (rest : list tok) : list tok :=
  rust "#![forbid(unsafe_code)] #![allow(dead_code)]
                           use super::{GlyphData, NoGlyphErr};
                           pub const MAX_HEIGHT: u8 ="
  ++ Word (fmt_d height) :: rust "; pub const M3_SEED: u32 ="
  ++ Word (fmt_d seed) :: rust "; pub fn get_blit_pattern_offset(cluster: &str)
                             -> Result<(GlyphData, usize), NoGlyphErr> {
                           let first_char: u32;
                           match cluster.chars().next() {
                               Some(c) => first_char = c as u32,
                               None => return Err(NoGlyphErr),
                           }
                           return match first_char {"
  ++ flat_map arm_toks arms ++ rust "_ => Err(super::NoGlyphErr), }; }"
  ++ flat_map (fun iw => item_toks (fst iw) (snd iw)) items
  ++ rust "pub const DATA: [u32;" ++ Word (fmt_d len) :: rust "] = [" ++ number_toks ws
  ++ rust "]; #[cfg(test)] mod tests {" ++ rest.

Lemma read_file height seed arms items len ws vs rest :
  Forall (fun iw => Forall2 (fun w v => literal w = Some v) (snd iw) (item_values (fst iw))) items ->
  Forall2 (fun w v => literal w = Some v) ws vs ->
  read_source (file_toks height seed arms items len ws rest) = Some (Source height seed arms (map fst items) len vs).
Proof.
  intros Fi Fw. unfold read_source, file_toks.
  rewrite expect_app, (int_ok _ _ _ (literal_dec _)), expect_app, (int_ok _ _ _ (literal_dec _)), expect_app.
  rewrite (flat_map_pairs arm_toks). rewrite many_of_ok; [| |reflexivity].
  2: { rewrite Forall_map, Forall_forall. intros r _. cbn [fst snd].
       split; [unfold arm_toks; discriminate|apply read_arm_ok]. }
  rewrite expect_app, map_map. cbn [fst]. rewrite map_id.
  assert (E : flat_map (fun iw => item_toks (fst iw) (snd iw)) items
              = flat_map snd (map (fun iw => (fst iw, item_toks (fst iw) (snd iw))) items)).
  { clear. induction items as [|a l IH]; [reflexivity|]. cbn [flat_map map snd]. rewrite IH. reflexivity. }
  rewrite E. rewrite many_of_ok; [| |reflexivity].
  2: { rewrite Forall_map. eapply Forall_impl; [|exact Fi]. intros [i w] H. cbn [fst snd] in *.
       split; [destruct i; discriminate|]. intros ts. apply read_item_ok. exact H. }
  rewrite map_map. cbn [fst]. rewrite expect_app, (int_ok _ _ _ (literal_dec _)), expect_app.
  set (fin := rust "]; #[cfg(test)] mod tests {").
  assert (exists t, fin = Sym 93 :: t) as (t & Et) by (eexists; vm_compute; reflexivity).
  rewrite Et. cbn [app]. rewrite (ints_ok vs ws _ Fw). rewrite app_comm_cons, <- Et, expect_app.
  reflexivity.
Qed.

Section Text.
  Variable printable : N -> bool.
  Hypothesis Hp : printable 10 = false.

  Lemma toks_arms name keys s : is_word name = true ->
    Forall (fun kb => is_word (find_ident (fst kb)) = true /\ snd kb <> []) keys ->
    toks Ground (flat_map (arm_text name) keys ++ s) = flat_map arm_toks (map (arm_of name) keys) ++ toks Ground s.
  Proof.
    intros Hn F. induction F as [|[k dex] keys [Hk Hd] F IH]; [reflexivity|].
    cbn [flat_map map]. rewrite <- !app_assoc. rewrite toks_arm by assumption. rewrite IH. reflexivity.
  Qed.

  Lemma toks_blocks keys s :
    Forall (fun kb => (is_word (find_ident (fst kb)) = true /\ is_word (hash_ident (fst kb)) = true
                       /\ is_word (offset_ident (fst kb)) = true) /\ snd kb <> []) keys ->
    toks Ground (flat_map (block_text printable) keys ++ s)
    = flat_map (fun iw => item_toks (fst iw) (snd iw)) (flat_map items_of keys) ++ toks Ground s.
  Proof.
    intros F. induction F as [|[k dex] keys [(H1 & H2 & H3) Hd] F IH]; [reflexivity|].
    cbn [flat_map]. rewrite <- !app_assoc. rewrite (toks_block printable Hp k dex) by assumption.
    rewrite flat_map_app, <- app_assoc. f_equal. exact IH.
  Qed.

  Lemma toks_file f legal g code ws seed :
    (0 <= fs_size f)%Z -> is_word (lit (fs_name f)) = true -> only_comments legal ->
    Forall (fun kb => (is_word (find_ident (fst kb)) = true /\ is_word (hash_ident (fst kb)) = true
                       /\ is_word (offset_ident (fst kb)) = true) /\ snd kb <> []) (index_keys g) ->
    (forall s, toks Ground (code ++ s) = number_toks ws ++ toks Ground s) ->
    exists rest, toks Ground (font_file_text printable f legal g code seed)
      = file_toks (Z.to_N (fs_size f)) seed (map (arm_of (lit (fs_name f))) (index_keys g))
          (flat_map items_of (index_keys g)) (gs_len g) ws rest.
  Proof.
    intros Hs Hn Hl Hk Hc. unfold font_file_text. cbv zeta.
    set (name := lit (fs_name f)) in *. clearbody name. set (keys := index_keys g) in *. clearbody keys. eexists.
    unfold notice_text. rewrite <- !app_assoc.
    pc (lit "// DO NOT MAKE EDITS HERE because this file is automatically generated." ++ nl
  ++ lit "// To make changes, see blitstr/codegen/main.go" ++ nl
  ++ lit "//" ++ nl
  ++ lit "// Copyright (c) 2020 Sam Blenny" ++ nl
  ++ lit "// SPDX-License-Identifier: Apache-2.0 OR MIT" ++ nl
  ++ lit "//" ++ nl
  ++ lit "// NOTE: The copyright notice above applies to the rust source code in this" ++ nl
  ++ lit "// file, but not to the bitmap graphics encoded in the DATA array (see credits)." ++ nl
  ++ lit "//" ++ nl
  ++ lit "// CREDITS:" ++ nl) (@nil tok). cbn [app].
    rewrite toks_comments by exact Hl. pcm (lit "//! ") (@nil tok) Comment. cbn [app].
    rewrite toks_comment by (apply is_word_one_line; exact Hn).
    rewrite toks_comment by reflexivity. rewrite toks_comment_end.
    unfold head_text. rewrite <- !app_assoc. rewrite fmt_int_nonneg by exact Hs.
    pc (lit "#![forbid(unsafe_code)]" ++ nl
  ++ lit "#![allow(dead_code)]" ++ nl
  ++ nl
  ++ lit "use super::{GlyphData, NoGlyphErr};" ++ nl
  ++ nl
  ++ lit "/// Maximum height of glyph patterns in this bitmap typeface." ++ nl
  ++ lit "/// This will be true: h + y_offset <= MAX_HEIGHT" ++ nl
  ++ lit "pub const MAX_HEIGHT: u8 = ") (rust "#![forbid(unsafe_code)] #![allow(dead_code)]
                           use super::{GlyphData, NoGlyphErr};
                           pub const MAX_HEIGHT: u8 ="). unfold file_toks. f_equal.
    wd (fmt_d (Z.to_N (fs_size f))); [|apply is_word_d]. f_equal.
    pc (lit ";" ++ nl
  ++ nl
  ++ lit "/// Seed for Murmur3 hashes in the HASH_* index arrays" ++ nl
  ++ lit "pub const M3_SEED: u32 = ") (rust "; pub const M3_SEED: u32 ="). f_equal.
    wd (fmt_d seed); [|apply is_word_d]. f_equal.
    pc (lit ";" ++ nl
  ++ nl
  ++ lit "/// Return Okay(offset into DATA[]) for start of blit pattern for grapheme cluster." ++ nl
  ++ lit "///" ++ nl
  ++ lit "/// Before doing an expensive lookup for the whole cluster, this does a pre-filter" ++ nl
  ++ lit "/// check to see whether the first character falls into one of the codepoint ranges" ++ nl
  ++ lit "/// for Unicode blocks included in this font." ++ nl
  ++ lit "///" ++ nl
  ++ lit "/// Returns: Result<(blit pattern offset into DATA, bytes of cluster used by match)>" ++ nl
  ++ lit "pub fn get_blit_pattern_offset(cluster: &str) -> Result<(GlyphData, usize), NoGlyphErr> {" ++ nl
  ++ lit "    let first_char: u32;" ++ nl
  ++ lit "    match cluster.chars().next() {" ++ nl
  ++ lit "        Some(c) => first_char = c as u32," ++ nl
  ++ lit "        None => return Err(NoGlyphErr)," ++ nl
  ++ lit "    }" ++ nl
  ++ lit "    return match first_char {" ++ nl
  ++ lit "        ") (rust "; pub fn get_blit_pattern_offset(cluster: &str)
                             -> Result<(GlyphData, usize), NoGlyphErr> {
                           let first_char: u32;
                           match cluster.chars().next() {
                               Some(c) => first_char = c as u32,
                               None => return Err(NoGlyphErr),
                           }
                           return match first_char {"). f_equal.
    rewrite toks_arms.
    2: exact Hn.
    2: { eapply Forall_impl; [|exact Hk]. intros kb [(H1 & _) H2]. auto. }
    f_equal.
    pc arms_end_text (rust "_ => Err(super::NoGlyphErr), }; }"). f_equal.
    rewrite toks_blocks by exact Hk. f_equal.
    unfold data_text. rewrite <- !app_assoc.
    pc (lit "/// Packed glyph pattern data." ++ nl
  ++ lit "/// Record format:" ++ nl
  ++ lit "///  [offset+0]: ((w as u8) << 16) | ((h as u8) << 8) | (yOffset as u8)" ++ nl
  ++ lit "///  [offset+1..=ceil(w*h/32)]: packed 1-bit pixels; 0=clear, 1=set" ++ nl
  ++ lit "/// Pixels are packed in top to bottom, left to right order with MSB of first" ++ nl
  ++ lit "/// pixel word containing the top left pixel." ++ nl
  ++ lit "///  w: Width of pattern in pixels" ++ nl
  ++ lit "///  h: Height of pattern in pixels" ++ nl
  ++ lit "///  yOffset: Vertical offset (pixels downward from top of line) to position" ++ nl
  ++ lit "///     glyph pattern properly relative to text baseline" ++ nl
  ++ lit "pub const DATA: [u32; ") (rust "pub const DATA: [u32;"). f_equal.
    wd (fmt_d (gs_len g)); [|apply is_word_d]. f_equal.
    pc (lit "] = [" ++ nl) (rust "] = ["). f_equal.
    rewrite Hc. f_equal. unfold tests_text. rewrite <- ?app_assoc.
    pc (lit "];" ++ nl ++ nl ++ lit "#[cfg(test)]" ++ nl ++ lit "mod tests {" ++ nl) (rust "]; #[cfg(test)] mod tests {"). f_equal.
  Qed.
End Text.

(** ** Names *)
Lemma distinct_nodup l : distinct l = true <-> NoDup l.
Proof.
  induction l as [|a l IH]; cbn [distinct]; [split; [constructor|reflexivity]|].
  rewrite andb_true_iff, negb_true_iff, IH. split.
  - intros [H1 H2]. constructor; [|exact H2]. intros I.
    assert (existsb (same a) l = true) by (apply existsb_exists; exists a; split; [exact I|apply same_refl]). congruence.
  - intros H. inversion H as [|x y H1 H2]; subst. split; [|exact H2]. apply not_true_is_false. intros E.
    apply existsb_exists in E. destruct E as (b & I & E). apply same_eq in E. subst b. contradiction.
Qed.

Lemma nodup_app_disjoint {A} (a b : list A) : NoDup (a ++ b) <-> NoDup a /\ NoDup b /\ (forall x, In x a -> ~ In x b).
Proof.
  induction a as [|x a IH]; cbn [app].
  - split; [intros H; repeat split; [constructor|exact H|intros y []]|tauto].
  - split.
    + intros H. inversion H as [|y z H1 H2]; subst. apply IH in H2. destruct H2 as (Ha & Hb & Hd).
      split; [constructor; [intros I; apply H1, in_or_app; auto|exact Ha]|]. split; [exact Hb|].
      intros y [<-|I] J; [apply H1, in_or_app; auto|exact (Hd y I J)].
    + intros (Ha & Hb & Hd). inversion Ha as [|y z H1 H2]; subst. constructor.
      * intros I. apply in_app_or in I. destruct I as [I|I]; [contradiction|]. exact (Hd x (or_introl eq_refl) I).
      * apply IH. repeat split; [exact H2|exact Hb|]. intros y I. apply Hd. right. exact I.
Qed.

Lemma nodup_flat_map_sub {A B} (f : A -> list B) (L l : list A) :
  NoDup (flat_map f L) -> NoDup l -> (forall a, In a l -> In a L) -> NoDup (flat_map f l).
Proof.
  intros HL.
  assert (G1 : forall a, In a L -> NoDup (f a)).
  { induction L as [|a L IH]; [intros ? []|]. cbn [flat_map] in HL. apply nodup_app_disjoint in HL.
    destruct HL as (H1 & H2 & _). intros b [<-|I]; [exact H1|exact (IH H2 b I)]. }
  assert (G2 : forall a b x, In a L -> In b L -> In x (f a) -> In x (f b) -> f a <> [] -> a = b).
  { induction L as [|a L IH]; [intros ? ? ? []|]. cbn [flat_map] in HL. apply nodup_app_disjoint in HL.
    destruct HL as (H1 & H2 & H3). intros b c x [<-|Ib] [<-|Ic] Xb Xc Nb.
    - reflexivity.
    - exfalso. apply (H3 x Xb). apply in_flat_map. eauto.
    - exfalso. apply (H3 x Xc). apply in_flat_map. eauto.
    - apply (IH H2) with (x := x); try assumption. intros d Id. apply G1. right. exact Id. }
  intros Hl Hi. induction l as [|a l IH]; [constructor|]. inversion Hl as [|y z N1 N2]; subst.
  cbn [flat_map]. apply nodup_app_disjoint. split; [apply G1, Hi; left; reflexivity|].
  split; [apply IH; [exact N2|intros b Ib; apply Hi; right; exact Ib]|].
  intros x Xa Xr. apply in_flat_map in Xr. destruct Xr as (b & Ib & Xb).
  assert (a = b).
  { apply (G2 a b x); [apply Hi; left; reflexivity|apply Hi; right; exact Ib|exact Xa|exact Xb|].
    intros E. rewrite E in Xa. exact Xa. }
  subst b. contradiction.
Qed.

Definition idents (k : ublock) : list str := [find_ident k; hash_ident k; offset_ident k].

Lemma known_idents : NoDup (flat_map idents known_blocks).
Proof. apply distinct_nodup. vm_compute. reflexivity. Qed.

Lemma known_words k : In k known_blocks ->
  is_word (find_ident k) = true /\ is_word (hash_ident k) = true /\ is_word (offset_ident k) = true.
Proof.
  intros I.
  assert (E : forallb (fun k => forallb is_word (idents k)) known_blocks = true) by (vm_compute; reflexivity).
  rewrite forallb_forall in E. specialize (E k I). unfold idents in E. cbn [forallb] in E.
  rewrite !andb_true_iff in E. tauto.
Qed.

(** ** Meaning *)
Lemma find_item items i : NoDup (map item_name items) -> In i items ->
  find (fun j => same (item_name j) (item_name i)) items = Some i.
Proof.
  induction items as [|j items IH]; intros D I; [destruct I|]. cbn [map] in D. inversion D as [|x y D1 D2]; subst.
  cbn [find]. destruct (same (item_name j) (item_name i)) eqn:E.
  - apply same_eq in E. destruct I as [->|I]; [reflexivity|]. exfalso. apply D1. rewrite E. apply in_map. exact I.
  - destruct I as [->|I]; [rewrite same_refl in E; discriminate|]. apply IH; assumption.
Qed.

Lemma items_names keys : map item_name (map fst (flat_map items_of keys)) = flat_map idents (map fst keys).
Proof.
  induction keys as [|[k dex] keys IH]; [reflexivity|]. cbn [flat_map map]. rewrite !map_app, IH. reflexivity.
Qed.

Lemma arm_meaning name keys k dex :
  NoDup (map fst keys) -> (forall kb, In kb keys -> In (fst kb) known_blocks) -> In (k, dex) keys -> dex <> [] ->
  Forall (fun e => e_hash e < 2 ^ 32) dex -> Forall (fun n => n < 2 ^ 32) (cluster_length_list dex) ->
  arm_block (map fst (flat_map items_of keys)) name (arm_of name (k, dex)) = Some (render_block (k, dex)).
Proof.
  intros D K I Hd Hh Hc. unfold arm_block, arm_of. cbn [r_attempts fst snd].
  assert (Nl : cluster_length_list dex <> []).
  { intros E. destruct dex as [|e dex]; [contradiction|].
    pose proof (proj2 (lengths_in (e :: dex) (N.of_nat (length (e_cluster e))))) as L. rewrite E in L.
    apply L. exists e. split; [left; reflexivity|reflexivity]. }
  set (items := map fst (flat_map items_of keys)).
  assert (Dn : NoDup (map item_name items)).
  { unfold items. rewrite items_names. apply (nodup_flat_map_sub idents known_blocks); [exact known_idents|exact D|].
    intros a Ia. apply in_map_iff in Ia. destruct Ia as (kb & <- & Ib). apply K. exact Ib. }
  assert (Ii : forall i, In i (map fst (items_of (k, dex))) -> In i items).
  { intros i Hi. unfold items. apply in_map_iff in Hi. destruct Hi as (iw & <- & Hi). apply in_map.
    apply in_flat_map. exists (k, dex). auto. }
  destruct (cluster_length_list dex) as [|n lens] eqn:El; [contradiction|]. cbn [map a_fn].
  assert (F : forallb (fun b => same (a_fn b) (find_ident k) && same (a_variant b) name && fits_u32 (a_limit b))
                (Attempt (find_ident k) n name :: map (fun n => Attempt (find_ident k) n name) lens) = true).
  { apply forallb_forall. intros b Ib.
    change (In b (map (fun n => Attempt (find_ident k) n name) (n :: lens))) in Ib.
    apply in_map_iff in Ib. destruct Ib as (x & <- & Ix). cbn [a_fn a_variant a_limit].
    rewrite !same_refl. cbn [andb]. unfold fits_u32. apply N.ltb_lt. rewrite Forall_forall in Hc. apply Hc. exact Ix. }
  rewrite F. unfold fn_tables.
  pose proof (find_item items (FnItem (find_ident k) (hash_ident k) (offset_ident k)) Dn (Ii _ (or_introl eq_refl))) as E1.
  cbn [item_name] in E1. rewrite E1.
  pose proof (find_item items _ Dn (Ii _ (or_intror (or_introl eq_refl)))) as E2. cbn [item_name fst] in E2.
  pose proof (find_item items _ Dn (Ii _ (or_intror (or_intror (or_introl eq_refl))))) as E3. cbn [item_name fst] in E3.
  unfold table_of. rewrite E2, E3, !same_refl. unfold array_of. rewrite !map_length, N.eqb_refl. cbn [andb].
  assert (F2 : forallb fits_u32 (map e_hash dex) = true).
  { rewrite forallb_forall. intros x Hx. apply in_map_iff in Hx. destruct Hx as (e & <- & Ie).
    rewrite Forall_forall in Hh. apply N.ltb_lt, Hh, Ie. }
  rewrite F2.
  assert (F3 : forallb fits_usize (map e_offset dex) = true) by (apply forallb_forall; reflexivity).
  rewrite F3. unfold render_block. destruct k as [lo hi]. cbn [r_low r_high fst snd map a_limit].
  rewrite El, map_map. cbn [a_limit]. rewrite map_id. reflexivity.
Qed.

Lemma all_some_map {A B C} (f : B -> option C) (h : A -> B) (g : A -> C) l :
  Forall (fun a => f (h a) = Some (g a)) l -> all_some (map f (map h l)) = Some (map g l).
Proof.
  induction 1 as [|a l E F IH]; [reflexivity|]. cbn [map all_some]. rewrite E, IH. reflexivity.
Qed.

(** ** Words and hashes fit in u32 *)
Lemma go_murmur3_lt s seed : go_murmur3 s seed < 2 ^ 32.
Proof. unfold go_murmur3. cbv zeta. apply lxor_u32; [apply wmul_lt|apply shiftr_u32, wmul_lt]. Qed.

Lemma for_n_ret {S} (P : S -> Prop) (body : N -> S -> res S) :
  (forall i s s', P s -> body i s = Ret s' -> P s') ->
  forall n i s s', P s -> for_n n i body s = Ret s' -> P s'.
Proof.
  intros H n. induction n as [|n IH]; intros i s s' Ps E; cbn [for_n] in E.
  - injection E as <-. exact Ps.
  - apply bind_ret_inv in E. destruct E as (s1 & E1 & E). apply (IH (i + 1) s1); [|exact E]. exact (H i s s1 Ps E1).
Qed.

Definition u32s (l : list N) : Prop := Forall (fun v => v < 2 ^ 32) l.

Lemma convert_u32 m y words : y < 2 ^ 32 -> convert_to_pattern m y = Ret words -> u32s words.
Proof.
  intros Hy E. unfold convert_to_pattern in E. cbv zeta in E. apply bind_ret_inv in E. destruct E as ([[p b] fl] & E & E2).
  assert (G : u32s (fst (fst (p, b, fl)))).
  { set (P := fun st : packing => u32s (fst (fst st))). change (P (p, b, fl)).
    revert E. unfold pack_loop, for_range. apply (for_n_ret P).
    - intros yy st st' Pst. apply (for_n_ret P); [|exact Pst]. clear st st' Pst. intros x [[p1 b1] f1] st' Pst E.
      unfold pack_pixel in E. apply bind_ret_inv in E. destruct E as (row & _ & E).
      apply bind_ret_inv in E. destruct E as (px & _ & E). cbv zeta in E.
      assert (B : (if (0 <? px)%Z then N.lor (w32 (N.shiftl b1 1)) 1 else w32 (N.shiftl b1 1)) < 2 ^ 32).
      { destruct (0 <? px)%Z; [apply lor_lt; [apply w32_lt|reflexivity]|apply w32_lt]. }
      destruct (w32 (yy * pat_w m + x) mod 32 =? 31); injection E as <-; unfold P in *; cbn [fst] in *; [|exact Pst].
      apply Forall_app. split; [exact Pst|]. repeat constructor. exact B.
    - unfold P. cbn [fst]. repeat constructor. unfold pat_header.
      apply lor_lt; [apply lor_lt; apply w32_lt|exact Hy]. }
  cbn [fst] in G. destruct fl; injection E2 as <-; [exact G|]. apply Forall_app. split; [exact G|].
  repeat constructor. apply w32_lt.
Qed.

Lemma patterns_u32 img fs csl : forall pl, pattern_list img fs csl = Ret pl -> u32s (flat_map bp_words pl).
Proof.
  unfold pattern_list. induction csl as [|cs csl IH]; intros pl E; cbn [map_res] in E.
  - injection E as <-. constructor.
  - apply bind_ret_inv in E. destruct E as (bp & Eb & E). apply bind_ret_inv in E. destruct E as (pl' & Ep & E).
    injection E as <-. cbn [flat_map]. apply Forall_app. split; [|exact (IH _ Ep)]. clear IH Ep.
    unfold new_blit_pattern in Eb. cbv zeta in Eb.
    destruct (fs_size fs + fs_gutter fs =? 0)%Z; [discriminate|].
    match type of Eb with (if ?b then _ else _) = _ => destruct b; [discriminate|] end.
    apply bind_ret_inv in Eb. destruct Eb as ([m y] & Et & Eb). apply bind_ret_inv in Eb.
    destruct Eb as (words & Ew & Eb). injection Eb as <-. cbn [bp_words]. apply (convert_u32 m y); [|exact Ew].
    unfold trim_to in Et. cbv zeta in Et.
    repeat (apply bind_ret_inv in Et; let a := fresh "a" in let Ea := fresh "Ea" in destruct Et as (a & Ea & Et)).
    injection Et as _ <-. apply w32_lt.
Qed.

(** ** The theorem *)
Lemma generated_text_reads printable fs legal img csl al fnt :
  printable 10 = false ->
  (0 <= fs_size fs < 256)%Z -> fs_seed fs < 2 ^ 32 ->
  is_word (lit (fs_name fs)) = true -> only_comments legal ->
  generate fs img csl al = Ret fnt ->
  Forall (fun b => Forall (fun n => n < 2 ^ 32) (b_limits b)) (f_blocks fnt) ->
  exists text, generate_text printable fs legal img csl al = Ret text /\
    read_rust (lit (fs_name fs)) text
    = Some (Constants (f_max_height fnt) (f_seed fnt) (f_blocks fnt) (concat (f_data fnt))).
Proof.
  intros Hp Hs Hseed Hn Hl E Hlim. unfold generate in E.
  apply bind_ret_inv in E. destruct E as (pl & Epl & E).
  apply bind_ret_inv in E. destruct E as (g0 & Eg & E).
  apply bind_ret_inv in E. destruct E as (g & Ea & E). injection E as <-.
  unfold generate_text. rewrite Epl. cbn [bind]. rewrite Eg. cbn [bind].
  destruct (toks_code printable Hp (fs_seed fs) pl 0 _ _ Eg) as (code & Ecode & Hcode & Hlen & Htoks).
  rewrite Ecode. cbn [bind]. rewrite Ea. cbn [bind]. eexists. split; [reflexivity|].
  cbn [gs_code gs_len app] in Hcode, Hlen. rewrite N.add_0_l in Hlen.
  destruct (new_set_inv _ _ _ Eg) as (cls & _ & _ & _ & Hh0).
  pose proof (patterns_full _ _ _ _ Eg ltac:(constructor)) as Hf0.
  unfold add_aliases in Ea. apply bind_ret_inv in Ea. destruct Ea as (ix & Ei & Ea). injection Ea as <-.
  destruct (add_aliases_inv _ _ _ _ _ Hh0 Ei) as (pairs & stored & _ & _ & Hh).
  pose proof (aliases_full _ _ _ _ Ei Hf0) as Hf.
  set (g := GlyphSet (gs_code g0) (gs_len g0) ix) in *.
  assert (Pk : Permutation (index_keys g) ix) by apply sort_perm.
  assert (Kd : NoDup (map fst (index_keys g))).
  { eapply Permutation_NoDup; [apply Permutation_map; symmetry; exact Pk|]. exact (ho_nodup _ _ _ Hh). }
  assert (Kk : forall kb, In kb (index_keys g) -> In (fst kb) known_blocks).
  { intros kb I. apply (ho_known _ _ _ Hh). apply in_map. eapply Permutation_in; [exact Pk|exact I]. }
  assert (Kf : forall kb, In kb (index_keys g) -> snd kb <> []).
  { intros kb I. unfold full in Hf. rewrite Forall_forall in Hf. apply Hf. eapply Permutation_in; [exact Pk|exact I]. }
  assert (Kh : forall kb, In kb (index_keys g) -> Forall (fun e => e_hash e < 2 ^ 32) (snd kb)).
  { intros kb I. pose proof (Kk kb I) as Ik. assert (I' : In kb ix) by (eapply Permutation_in; [exact Pk|exact I]).
    assert (G : map_get ix (fst kb) = snd kb).
    { pose proof (ho_nodup _ _ _ Hh) as D. clear - I' D. induction ix as [|[k b] t IH]; [destruct I'|].
      cbn [map fst] in D. inversion D as [|x y D1 D2]; subst. cbn [map_get]. destruct I' as [<-|I'].
      - cbn [fst snd]. assert (ublock_eqb k k = true) as -> by (apply ublock_eqb_spec; reflexivity). reflexivity.
      - destruct (ublock_eqb k (fst kb)) eqn:Eq; [|exact (IH I' D2)]. apply ublock_eqb_spec in Eq. exfalso.
        apply D1. rewrite Eq. apply in_map. exact I'. }
    pose proof (ho_perm _ _ _ Hh (fst kb) Ik) as P. rewrite G in P. rewrite Forall_forall. intros e Ie.
    eapply Permutation_in in Ie; [|exact P]. apply in_map_iff in Ie. destruct Ie as (p & <- & _).
    cbn [entry_of e_hash]. apply go_murmur3_lt. }
  destruct (toks_file printable Hp fs legal g code (map word_text (flat_map bp_words pl)) (fs_seed fs) (proj1 Hs) Hn Hl) with (2 := Htoks) as (rest & Et).
  { rewrite Forall_forall. intros kb I. split; [apply known_words, Kk, I|apply Kf, I]. }
  unfold read_rust. rewrite tokens_toks, Et.
  rewrite read_file with (vs := flat_map bp_words pl).
  3: { clear. induction (flat_map bp_words pl) as [|w l IH]; constructor; [apply literal_08x|exact IH]. }
  2: { rewrite Forall_forall. intros iw I. apply in_flat_map in I. destruct I as (kb & _ & I).
       pose proof (items_literal kb) as L. rewrite Forall_forall in L. exact (L iw I). }
  unfold meaning. cbn [s_items s_max_height s_seed s_arms s_data_len s_data].
  assert (D1 : distinct (map item_name (map fst (flat_map items_of (index_keys g)))) = true).
  { apply distinct_nodup. rewrite items_names. apply (nodup_flat_map_sub idents known_blocks); [exact known_idents|exact Kd|].
    intros a Ia. apply in_map_iff in Ia. destruct Ia as (kb & <- & Ib). apply Kk. exact Ib. }
  rewrite D1. assert (D2 : (Z.to_N (fs_size fs) <? 256) = true) by (apply N.ltb_lt; lia). rewrite D2.
  assert (D3 : fits_u32 (fs_seed fs) = true) by (apply N.ltb_lt; exact Hseed). rewrite D3. cbn [andb].
  rewrite (all_some_map _ (arm_of (lit (fs_name fs))) render_block).
  2: { rewrite Forall_forall. intros [k dex] I. apply arm_meaning; [exact Kd|exact Kk|exact I|exact (Kf _ I)|exact (Kh _ I)|].
       rewrite Forall_forall in Hlim. unfold render_font in Hlim. cbn [f_blocks] in Hlim.
       specialize (Hlim (render_block (k, dex)) ltac:(apply in_map; exact I)). destruct k as [lo hi]. exact Hlim. }
  assert (Ew : array_of fits_u32 (gs_len g) (flat_map bp_words pl) = Some (flat_map bp_words pl)).
  { unfold array_of. cbn [gs_len]. unfold g. cbn [gs_len]. rewrite Hlen, N.eqb_refl. cbn [andb].
    assert (forallb fits_u32 (flat_map bp_words pl) = true) as ->; [|reflexivity].
    apply forallb_forall. intros w Iw. pose proof (patterns_u32 _ _ _ _ Epl) as U. unfold u32s in U.
    rewrite Forall_forall in U. apply N.ltb_lt, U, Iw. }
  rewrite Ew. rewrite render_data. unfold render_font. cbn [f_max_height f_seed f_blocks]. unfold g. cbn [gs_code].
  rewrite Hcode. reflexivity.
Qed.
