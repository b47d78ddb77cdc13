(** * Proofs: the texts of Render.v and Config.v are what the templates give *)
From Coq Require Import ZArith String Ascii Permutation.
From Verif Require Import Prim Str FontDefs Codegen CodegenText Render Config SortProofs CgIndex Template TemplateTexts.
Local Open Scope string_scope.
Local Open Scope N_scope.
Local Open Scope list_scope.
Local Notation length := List.length.

(** ** The templates, read *)
Definition text (s : string) : node := NText (lit s).
Definition range (vars : list string) (c : list operand) (body : list node) : node := NRange (map lit vars) c body.
Definition with_ (vars : list string) (c : list operand) (body : list node) : node := NWith (map lit vars) c body.
Definition field (path : list string) : operand := OField (map lit path).
Definition var (x : string) (path : list string) : operand := OVar (lit x) (map lit path).
Definition str_ (s : string) : operand := OString (lit s).
Definition func (f : string) : operand := OFunc (lit f).
Arguments text s%string.
Arguments range vars%string c body.
Arguments with_ vars%string c body.
Arguments field path%string.
Arguments var x%string path%string.
Arguments str_ s%string.
Arguments func f%string.

Definition usage_nodes : list node :=
  [
   text "
This tool generates fonts in the form of rust source code.
To confirm that you want to write the files, use the ";
   NShow [field ["Confirm"]];
   text " switch.

Font files that will be generated:";
   range ["f"] [field ["Fonts"]] [
   text "
  ";
   NShow [var "f" ["RustOut"]]];
   text "

Usage:
    go run main.go ";
   NShow [field ["Confirm"]];
   text "
"].
Lemma usage_parsed : parse_template (lit usage_template) = Ret usage_nodes.
Proof. vm_compute. reflexivity. Qed.

Definition try_nodes : list node :=
  [
   text "if let Some((offset, bytes_used)) = find_";
   NShow [func "ToLower"; var "k" ["Name"]];
   text "(cluster, ";
   NShow [var "gcLen" []];
   text ") {
                Ok((GlyphData::";
   NShow [var "" ["Font"; "Name"]];
   text "(offset), bytes_used))
            } else "].
Definition arm_body : list node :=
  [
   text "0x";
   NShow [func "printf"; str_ "%X"; var "k" ["Low"]];
   text "..=0x";
   NShow [func "printf"; str_ "%X"; var "k" ["High"]];
   text " => {
            ";
   range ["_"; "gcLen"] [var "dex" ["ClusterLengthList"]] try_nodes;
   text "{
                Err(NoGlyphErr)
            }
        }
        "].
Definition arm_nodes : list node :=
  [
   with_ ["dex"] [func "index"; var "" ["GS"; "Index"]; var "k" []] arm_body].
Definition block_body : list node :=
  [
   text "/// Use binary search on table of grapheme cluster hashes to find blit pattern for grapheme cluster.
/// Only attempt to match grapheme clusters of length limit codepoints.
fn find_";
   NShow [func "ToLower"; var "k" ["Name"]];
   text "(cluster: &str, limit: u32) -> Option<(usize, usize)> {
    let (key, bytes_hashed) = super::murmur3(cluster, M3_SEED, limit);
    match HASH_";
   NShow [var "k" ["Name"]];
   text ".binary_search(&key) {
        Ok(index) => return Some((OFFSET_";
   NShow [var "k" ["Name"]];
   text "[index], bytes_hashed)),
        _ => None,
    }
}

/// Index of murmur3(grapheme cluster); sort matches OFFSET_";
   NShow [var "k" ["Name"]];
   text "
const HASH_";
   NShow [var "k" ["Name"]];
   text ": [u32; ";
   NShow [func "len"; var "dex" []];
   text "] = [
    ";
   NShow [var "dex" ["RustCodeForClusterHashes"]];
   text "
];

/// Lookup table of blit pattern offsets; sort matches HASH_";
   NShow [var "k" ["Name"]];
   text "
const OFFSET_";
   NShow [var "k" ["Name"]];
   text ": [usize; ";
   NShow [func "len"; var "dex" []];
   text "] = [
    ";
   NShow [var "dex" ["RustCodeForOffsets"]];
   text "
];

"].
Definition block_nodes : list node :=
  [
   with_ ["dex"] [func "index"; var "" ["GS"; "Index"]; var "k" []] block_body].
Definition test_nodes : list node :=
  [
   text "
        for i in 0..HASH_";
   NShow [var "k" ["Name"]];
   text ".len()-1 {
            assert!(HASH_";
   NShow [var "k" ["Name"]];
   text "[i] < HASH_";
   NShow [var "k" ["Name"]];
   text "[i+1]);
        }"].
Definition font_file_nodes : list node :=
  [
   text "// DO NOT MAKE EDITS HERE because this file is automatically generated.
// To make changes, see blitstr/codegen/main.go
//
// Copyright (c) 2020 Sam Blenny
// SPDX-License-Identifier: Apache-2.0 OR MIT
//
// NOTE: The copyright notice above applies to the rust source code in this
// file, but not to the bitmap graphics encoded in the DATA array (see credits).
//
// CREDITS:
";
   NShow [field ["Font"; "Legal"]];
   text "
//! ";
   NShow [field ["Font"; "Name"]];
   text " Font
#![forbid(unsafe_code)]
#![allow(dead_code)]

use super::{GlyphData, NoGlyphErr};

/// Maximum height of glyph patterns in this bitmap typeface.
/// This will be true: h + y_offset <= MAX_HEIGHT
pub const MAX_HEIGHT: u8 = ";
   NShow [field ["Font"; "Size"]];
   text ";

/// Seed for Murmur3 hashes in the HASH_* index arrays
pub const M3_SEED: u32 = ";
   NShow [field ["M3Seed"]];
   text ";

/// Return Okay(offset into DATA[]) for start of blit pattern for grapheme cluster.
///
/// Before doing an expensive lookup for the whole cluster, this does a pre-filter
/// check to see whether the first character falls into one of the codepoint ranges
/// for Unicode blocks included in this font.
///
/// Returns: Result<(blit pattern offset into DATA, bytes of cluster used by match)>
pub fn get_blit_pattern_offset(cluster: &str) -> Result<(GlyphData, usize), NoGlyphErr> {
    let first_char: u32;
    match cluster.chars().next() {
        Some(c) => first_char = c as u32,
        None => return Err(NoGlyphErr),
    }
    return match first_char {
        ";
   range ["_"; "k"] [field ["GS"; "IndexKeys"]] arm_nodes;
   text "_ => Err(super::NoGlyphErr),
    };
}

";
   range ["_"; "k"] [field ["GS"; "IndexKeys"]] block_nodes;
   text "/// Packed glyph pattern data.
/// Record format:
///  [offset+0]: ((w as u8) << 16) | ((h as u8) << 8) | (yOffset as u8)
///  [offset+1..=ceil(w*h/32)]: packed 1-bit pixels; 0=clear, 1=set
/// Pixels are packed in top to bottom, left to right order with MSB of first
/// pixel word containing the top left pixel.
///  w: Width of pattern in pixels
///  h: Height of pattern in pixels
///  yOffset: Vertical offset (pixels downward from top of line) to position
///     glyph pattern properly relative to text baseline
pub const DATA: [u32; ";
   NShow [field ["GS"; "DataLen"]];
   text "] = [
";
   NShow [field ["GS"; "Code"]];
   text "];

#[cfg(test)]
mod tests {
    use super::*;

    #[test]
    // If this fails, there's probably a hash collision, so change the seed.
    fn test_hashes_unique_and_sorted() {";
   range ["_"; "k"] [field ["GS"; "IndexKeys"]] test_nodes;
   text "
    }
}
"].
Lemma font_file_parsed : parse_template (lit font_file_template) = Ret font_file_nodes.
Proof. vm_compute. reflexivity. Qed.

(** ** Execution *)
Definition exec_loop (vars : list str) (body : list node) (env : list (str * value)) : nat -> list value -> res str :=
  fix loop (i : nat) (l : list value) {struct l} : res str :=
    match l with
    | [] => Ret []
    | x :: t => a <- exec_all body (range_vars vars i x ++ env) x ;; b <- loop (S i) t ;; Ret (a ++ b)
    end.
Lemma exec_loop_cons vars body env i x t : exec_loop vars body env i (x :: t) =
  (a <- exec_all body (range_vars vars i x ++ env) x ;; b <- exec_loop vars body env (S i) t ;; Ret (a ++ b)).
Proof. reflexivity. Qed.
Lemma exec_range vars c body env dot : exec (NRange vars c body) env dot =
  (v <- eval env dot c ;; match v with Slice l _ => exec_loop vars body env 0 l | _ => Panic end).
Proof. reflexivity. Qed.
Lemma exec_with vars c body env dot : exec (NWith vars c body) env dot =
  (v <- eval env dot c ;; if truth v then exec_all body (range_vars vars 0 v ++ env) v else Ret []).
Proof. reflexivity. Qed.
Lemma loop_flat {A} vars body env (g : A -> value) (f : A -> str) : forall l i,
  (forall i x, In x l -> exec_all body (range_vars vars i (g x) ++ env) (g x) = Ret (f x)) ->
  exec_loop vars body env i (map g l) = Ret (flat_map f l).
Proof.
  induction l as [|x l IH]; intros i H; [reflexivity|]. cbn [map flat_map]. rewrite exec_loop_cons, (H i x) by (left; reflexivity). cbn [bind].
  rewrite IH by (intros; apply H; right; assumption). reflexivity.
Qed.
Lemma exec_cons n t env dot : exec_all (n :: t) env dot = (a <- exec n env dot ;; b <- exec_all t env dot ;; Ret (a ++ b)).
Proof. reflexivity. Qed.
Lemma exec_text s env dot : exec (text s) env dot = Ret (lit s).
Proof. reflexivity. Qed.
Lemma exec_show c env dot : exec (NShow c) env dot = (v <- eval env dot c ;; print v).
Proof. reflexivity. Qed.

(** One action, given what it shows *)
Lemma all_text s t env dot r : exec_all t env dot = Ret r -> exec_all (text s :: t) env dot = Ret (lit s ++ r).
Proof. intros E. rewrite exec_cons, exec_text, E. reflexivity. Qed.
Lemma all_node n t env dot a r : exec n env dot = Ret a -> exec_all t env dot = Ret r -> exec_all (n :: t) env dot = Ret (a ++ r).
Proof. intros E1 E2. rewrite exec_cons, E1, E2. reflexivity. Qed.
Lemma all_nil env dot : exec_all [] env dot = Ret [].
Proof. reflexivity. Qed.

(** Names are compared by evaluation *)
Ltac names := repeat (match goal with |- context [str_eqb ?a ?b] =>
  let v := eval vm_compute in (str_eqb a b) in change (str_eqb a b) with v; cbv iota end).
Ltac find_value := unfold field, var, func, str_; cbn [map eval eval_all eval_operand bind];
  repeat (progress (cbn [lookup get_path bind app range_vars]; names)).

Lemma int_N n : fmt_int (Z.of_N n) = fmt_d n.
Proof. unfold fmt_int. destruct (Z.ltb_spec (Z.of_N n) 0) as [|_]; [lia|]. rewrite N2Z.id. reflexivity. Qed.
Lemma int_nat n : fmt_int (Z.of_nat n) = fmt_d (N.of_nat n).
Proof. rewrite <- nat_N_Z. apply int_N. Qed.
Lemma hex_N n : fmt_hex (Z.of_N n) = fmt_X n.
Proof. unfold fmt_hex. destruct (Z.ltb_spec (Z.of_N n) 0) as [|_]; [lia|]. rewrite N2Z.id. reflexivity. Qed.

(** ** The usage message *)
Lemma usage_rendered confirm jobs : render_template usage_template (usage_context confirm jobs) = Ret (usage_text confirm jobs).
Proof.
  unfold render_template, render. rewrite usage_parsed. cbn [bind]. unfold usage_nodes.
  set (ctx := usage_context confirm jobs).
  assert (E : forall body r, exec_loop [lit "f"] body [([], ctx)] 0 (map (fun j => Struct [(lit "RustOut", Str (fj_out j))]) jobs) = Ret r ->
    exec (range ["f"] [field ["Fonts"]] body) [([], ctx)] ctx = Ret r).
  { intros body r H. unfold range. rewrite exec_range. find_value. exact H. }
  erewrite all_text; [|eapply all_node; [|eapply all_text, all_node; [|eapply all_text, all_node; [|apply all_text, all_nil]]]]; cycle 1.
  - reflexivity.
  - apply E, (loop_flat _ _ _ _ (fun j => lit "
  " ++ fj_out j ++ [])). intros i j _. apply all_text. eapply all_node; [|apply all_nil]. reflexivity.
  - reflexivity.
  - f_equal. unfold usage_text.
    assert (F : flat_map (fun j => lit "
  " ++ fj_out j ++ []) jobs = flat_map (fun j => nl ++ lit "  " ++ fj_out j) jobs)
      by (apply flat_map_ext; intros j; rewrite app_nil_r; reflexivity).
    rewrite F. generalize (flat_map (fun j => nl ++ lit "  " ++ fj_out j) jobs). intros l. reflexivity.
Qed.

(** ** A font file *)
Lemma str_eqb_refl s : str_eqb s s = true.
Proof. unfold str_eqb. destruct (list_eq_dec N.eq_dec s s) as [_|N]; [reflexivity|contradiction]. Qed.
Lemma key_eqb a b : value_eqb (ublock_value a) (ublock_value b) = ublock_eqb a b.
Proof.
  transitivity ((Z.of_N (fst a) =? Z.of_N (fst b))%Z && ((Z.of_N (snd a) =? Z.of_N (snd b))%Z && (str_eqb (block_name a) (block_name b) && true)));
    [reflexivity|].
  destruct (ublock_eqb a b) eqn:E.
  - apply ublock_eqb_spec in E. subst b. rewrite !Z.eqb_refl, str_eqb_refl. reflexivity.
  - destruct (Z.eqb_spec (Z.of_N (fst a)) (Z.of_N (fst b))) as [E1|]; [|reflexivity].
    destruct (Z.eqb_spec (Z.of_N (snd a)) (Z.of_N (snd b))) as [E2|]; [|reflexivity].
    exfalso. apply N2Z.inj in E1, E2. destruct a, b. cbn [fst snd] in *. subst.
    assert (ublock_eqb (n1, n2) (n1, n2) = true) by (apply ublock_eqb_spec; reflexivity). congruence.
Qed.
Lemma find_index printable ix k b : NoDup (map fst ix) -> In (k, b) ix ->
  find (fun e => value_eqb (fst e) (ublock_value k)) (map (fun kb => (ublock_value (fst kb), index_value printable (snd kb))) ix)
  = Some (ublock_value k, index_value printable b).
Proof.
  induction ix as [|[k' b'] ix IH]; intros D I; [contradiction I|]. cbn [map fst snd find] in *. rewrite key_eqb. inversion D as [|? ? N D']; subst.
  destruct I as [E|I].
  - injection E as -> ->. replace (ublock_eqb k k) with true; [reflexivity|]. symmetry. apply ublock_eqb_spec. reflexivity.
  - destruct (ublock_eqb k' k) eqn:E; [|apply IH; assumption]. apply ublock_eqb_spec in E. subst k'. exfalso. apply N.
    change k with (fst (k, b)). apply in_map, I.
Qed.

Ltac node X := apply (all_node _ _ _ _ X); [reflexivity|].

(** The parts of the text with the breaks of the template *)
Lemma notice_parts legal name : notice_text legal name = lit "// DO NOT MAKE EDITS HERE because this file is automatically generated.
// To make changes, see blitstr/codegen/main.go
//
// Copyright (c) 2020 Sam Blenny
// SPDX-License-Identifier: Apache-2.0 OR MIT
//
// NOTE: The copyright notice above applies to the rust source code in this
// file, but not to the bitmap graphics encoded in the DATA array (see credits).
//
// CREDITS:
" ++ legal ++ lit "
//! " ++ name ++ lit " Font
".
Proof. reflexivity. Qed.
Lemma head_parts size seed : head_text size seed = lit "#![forbid(unsafe_code)]
#![allow(dead_code)]

use super::{GlyphData, NoGlyphErr};

/// Maximum height of glyph patterns in this bitmap typeface.
/// This will be true: h + y_offset <= MAX_HEIGHT
pub const MAX_HEIGHT: u8 = " ++ fmt_int size ++ lit ";

/// Seed for Murmur3 hashes in the HASH_* index arrays
pub const M3_SEED: u32 = " ++ fmt_d seed ++ lit ";

/// Return Okay(offset into DATA[]) for start of blit pattern for grapheme cluster.
///
/// Before doing an expensive lookup for the whole cluster, this does a pre-filter
/// check to see whether the first character falls into one of the codepoint ranges
/// for Unicode blocks included in this font.
///
/// Returns: Result<(blit pattern offset into DATA, bytes of cluster used by match)>
pub fn get_blit_pattern_offset(cluster: &str) -> Result<(GlyphData, usize), NoGlyphErr> {
    let first_char: u32;
    match cluster.chars().next() {
        Some(c) => first_char = c as u32,
        None => return Err(NoGlyphErr),
    }
    return match first_char {
        ".
Proof. reflexivity. Qed.
Lemma data_parts n code : data_text n code = lit "/// Packed glyph pattern data.
/// Record format:
///  [offset+0]: ((w as u8) << 16) | ((h as u8) << 8) | (yOffset as u8)
///  [offset+1..=ceil(w*h/32)]: packed 1-bit pixels; 0=clear, 1=set
/// Pixels are packed in top to bottom, left to right order with MSB of first
/// pixel word containing the top left pixel.
///  w: Width of pattern in pixels
///  h: Height of pattern in pixels
///  yOffset: Vertical offset (pixels downward from top of line) to position
///     glyph pattern properly relative to text baseline
pub const DATA: [u32; " ++ fmt_d n ++ lit "] = [
" ++ code ++ lit "];

".
Proof. reflexivity. Qed.

Section FontFile.
  Context (printable : N -> bool) (f : fontspec) (legal : str) (g : glyph_set) (code : str) (m3Seed : N).
  Let ctx := font_file_context printable f legal g code m3Seed.
  Let root : list (str * value) := [([], ctx)].
  Context (distinct : NoDup (map fst (gs_index g))).

  (** The variables in the body of a range over the keys, and of a with in it *)
  Definition in_range (i : nat) (k : ublock) : list (str * value) :=
    (lit "k", ublock_value k) :: (lit "_", Num (Z.of_nat i)) :: root.
  Definition in_with (i : nat) (k : ublock) (b : block_index) : list (str * value) :=
    (lit "dex", index_value printable b) :: in_range i k.

  Lemma try_ok i k b j n dot :
    exec_all try_nodes ((lit "gcLen", Num (Z.of_N n)) :: (lit "_", Num (Z.of_nat j)) :: in_with i k b) dot
    = Ret (try_text (lit (fs_name f)) k n).
  Proof.
    transitivity (Ret (lit "if let Some((offset, bytes_used)) = find_" ++ to_lower (block_name k) ++ lit "(cluster, "
      ++ fmt_int (Z.of_N n) ++ lit ") {
                Ok((GlyphData::" ++ lit (fs_name f) ++ lit "(offset), bytes_used))
            } else " ++ [])).
    - unfold try_nodes.
      apply all_text. node (to_lower (block_name k)). apply all_text. node (fmt_int (Z.of_N n)). apply all_text.
      node (lit (fs_name f)). apply all_text. apply all_nil.
    - rewrite int_N. unfold try_text, find_ident. generalize (to_lower (block_name k)), (fmt_d n), (lit (fs_name f)). intros a b' c.
      reflexivity.
  Qed.

  Lemma with_ok i k b body r dot : In (k, b) (gs_index g) -> 
    exec_all body (in_with i k b) (index_value printable b) = Ret r ->
    exec_all [with_ ["dex"] [func "index"; var "" ["GS"; "Index"]; var "k" []] body] (in_range i k) dot
    = Ret (match b with [] => [] | _ => r end).
  Proof.
    intros I E. rewrite exec_cons. unfold with_. rewrite exec_with. 
    replace (eval (in_range i k) dot [func "index"; var "" ["GS"; "Index"]; var "k" []]) with (Ret (index_value printable b)).
    2:{ transitivity (call (lit "index") [Map (map (fun kb => (ublock_value (fst kb), index_value printable (snd kb))) (gs_index g)) (index_value printable []); ublock_value k]);
        [|reflexivity]. unfold call. names. rewrite (find_index printable _ k b distinct I). reflexivity. }
    cbn [bind]. change (truth (index_value printable b)) with (match map entry_value b with [] => false | _ => true end).
    destruct b as [|e b]; [reflexivity|]. cbn [map]. cbv iota.
    change (range_vars [lit "dex"] 0 (index_value printable (e :: b)) ++ in_range i k) with (in_with i k (e :: b)).
    rewrite E. cbn [bind exec_all]. rewrite app_nil_r. reflexivity.
  Qed.

  Lemma arm_ok i k b dot : In (k, b) (gs_index g) ->
    exec_all arm_nodes (in_range i k) dot = Ret (arm_text (lit (fs_name f)) (k, b)).
  Proof.
    intros I. unfold arm_nodes, arm_text. apply (with_ok i k b arm_body); [exact I|].
    transitivity (Ret (lit "0x" ++ (fmt_hex (Z.of_N (fst k)) ++ []) ++ lit "..=0x" ++ (fmt_hex (Z.of_N (snd k)) ++ []) ++ lit " => {
            " ++ flat_map (try_text (lit (fs_name f)) k) (cluster_length_list b) ++ lit "{
                Err(NoGlyphErr)
            }
        }
        " ++ [])).
    - unfold arm_body. apply all_text. node (fmt_hex (Z.of_N (fst k)) ++ []). apply all_text. node (fmt_hex (Z.of_N (snd k)) ++ []).
      apply all_text. apply all_node.
      + unfold range. rewrite exec_range.
        change (eval (in_with i k b) (index_value printable b) [var "dex" ["ClusterLengthList"]])
          with (Ret (Slice (map (fun n => Num (Z.of_N n)) (cluster_length_list b)) [])). cbn [bind].
        apply loop_flat. intros j n _. apply try_ok.
      + apply all_text, all_nil.
    - rewrite !hex_N, !app_nil_r. generalize (fmt_X (fst k)), (fmt_X (snd k)), (flat_map (try_text (lit (fs_name f)) k) (cluster_length_list b)).
      intros x y z. reflexivity.
  Qed.

  Lemma block_ok i k b dot : In (k, b) (gs_index g) ->
    exec_all block_nodes (in_range i k) dot = Ret (block_text printable (k, b)).
  Proof.
    intros I. unfold block_nodes, block_text. apply (with_ok i k b block_body); [exact I|].
    unfold block_body.
    transitivity (Ret (lit "/// Use binary search on table of grapheme cluster hashes to find blit pattern for grapheme cluster.
/// Only attempt to match grapheme clusters of length limit codepoints.
fn find_" ++ to_lower (block_name k) ++ lit "(cluster: &str, limit: u32) -> Option<(usize, usize)> {
    let (key, bytes_hashed) = super::murmur3(cluster, M3_SEED, limit);
    match HASH_" ++ block_name k ++ lit ".binary_search(&key) {
        Ok(index) => return Some((OFFSET_" ++ block_name k ++ lit "[index], bytes_hashed)),
        _ => None,
    }
}

/// Index of murmur3(grapheme cluster); sort matches OFFSET_" ++ block_name k ++ lit "
const HASH_" ++ block_name k ++ lit ": [u32; " ++ fmt_int (Z.of_nat (length (map entry_value b))) ++ lit "] = [
    " ++ code_for_hashes printable b ++ lit "
];

/// Lookup table of blit pattern offsets; sort matches HASH_" ++ block_name k ++ lit "
const OFFSET_" ++ block_name k ++ lit ": [usize; " ++ fmt_int (Z.of_nat (length (map entry_value b))) ++ lit "] = [
    " ++ code_for_offsets printable b ++ lit "
];

" ++ [])).
    - apply all_text. node (to_lower (block_name k)). do 4 (apply all_text; node (block_name k)).
      apply all_text. node (fmt_int (Z.of_nat (length (map entry_value b)))).
      apply all_text. node (code_for_hashes printable b).
      do 2 (apply all_text; node (block_name k)).
      apply all_text. node (fmt_int (Z.of_nat (length (map entry_value b)))).
      apply all_text. node (code_for_offsets printable b).
      apply all_text, all_nil.
    - rewrite map_length, int_nat. unfold find_ident, hash_ident, offset_ident.
      generalize (to_lower (block_name k)), (block_name k), (fmt_d (N.of_nat (length b))), (code_for_hashes printable b), (code_for_offsets printable b).
      intros x y z u v. reflexivity.
  Qed.

  Lemma test_ok i k b dot : exec_all test_nodes (in_range i k) dot = Ret (test_text (k, b)).
  Proof.
    unfold test_nodes, test_text.
    transitivity (Ret (lit "
        for i in 0..HASH_" ++ block_name k ++ lit ".len()-1 {
            assert!(HASH_" ++ block_name k ++ lit "[i] < HASH_" ++ block_name k ++ lit "[i+1]);
        }" ++ [])).
    - do 3 (apply all_text; node (block_name k)). apply all_text, all_nil.
    - unfold hash_ident. generalize (block_name k). intros x. reflexivity.
  Qed.

  Lemma keys_ok body (out : ublock * block_index -> str) :
    (forall i k b dot, In (k, b) (gs_index g) -> exec_all body (in_range i k) dot = Ret (out (k, b))) ->
    exec (range ["_"; "k"] [field ["GS"; "IndexKeys"]] body) root ctx = Ret (flat_map out (index_keys g)).
  Proof.
    intros H. unfold range. rewrite exec_range.
    change (eval root ctx [field ["GS"; "IndexKeys"]]) with (Ret (Slice (map (fun kb => ublock_value (fst kb)) (index_keys g)) [])). cbn [bind].
    apply loop_flat. intros i [k b] Ik. apply (H i k b).
    exact (Permutation_in _ (sort_perm (fun kb : ublock * block_index => fst (fst kb)) (gs_index g)) Ik).
  Qed.

  Lemma font_file_rendered :
    render_template font_file_template ctx = Ret (font_file_text printable f legal g code m3Seed).
  Proof.
    unfold render_template, render. rewrite font_file_parsed. cbn [bind]. fold root. unfold font_file_nodes, font_file_text.
    etransitivity.
    - apply all_text. node legal. apply all_text. node (lit (fs_name f)). apply all_text. node (fmt_int (fs_size f)).
      apply all_text. node (fmt_int (Z.of_N m3Seed)). apply all_text.
      eapply all_node; [apply (keys_ok arm_nodes (arm_text (lit (fs_name f)))); intros; apply arm_ok; assumption|].
      apply all_text. eapply all_node; [apply (keys_ok block_nodes (block_text printable)); intros; apply block_ok; assumption|].
      apply all_text. node (fmt_int (Z.of_N (gs_len g))). apply all_text. node code. apply all_text.
      eapply all_node; [apply (keys_ok test_nodes test_text); intros; apply test_ok|]. apply all_text, all_nil.
    - rewrite !int_N, notice_parts, head_parts, data_parts. unfold arms_end_text, tests_text.
      generalize (lit (fs_name f)) as x1. intros x1.
      generalize (fmt_int (fs_size f)) as x2, (fmt_d m3Seed) as x3, (flat_map (arm_text x1) (index_keys g)) as x4,
        (flat_map (block_text printable) (index_keys g)) as x5, (fmt_d (gs_len g)) as x6, (flat_map test_text (index_keys g)) as x7.
      intros x2 x3 x4 x5 x6 x7.
      assert (A : forall a b c d e r : str, (a ++ b ++ c ++ d ++ e) ++ r = a ++ b ++ c ++ d ++ e ++ r) by (intros; rewrite <- !app_assoc; reflexivity).
      rewrite !A. reflexivity.
  Qed.
End FontFile.

(** ** Runs of the tool *)
Lemma insert_distinct ix cl seed off ix' : NoDup (map fst ix) -> gs_insert ix cl seed off = Ret ix' -> NoDup (map fst ix').
Proof. intros D E. apply gs_insert_inv in E. destruct E as (k & _ & _ & ->). apply map_set_nodup, D. Qed.
Lemma set_distinct seed pl : forall g g', NoDup (map fst (gs_index g)) -> fold_res (add_pattern seed) pl g = Ret g' ->
  NoDup (map fst (gs_index g')).
Proof.
  induction pl as [|p pl IH]; intros g g' D E; cbn [fold_res] in E; [injection E as <-; exact D|].
  unfold add_pattern in E at 1. destruct (cluster_of (bp_cs p)) as [cl|]; [|discriminate E]. cbn [bind] in E.
  destruct (gs_insert (gs_index g) cl seed (gs_len g)) as [ix|] eqn:Ei; [|discriminate E]. cbn [bind] in E.
  apply IH in E; [exact E|]. cbn [gs_index]. exact (insert_distinct _ _ _ _ _ D Ei).
Qed.
Lemma aliases_distinct seed al : forall ix ix', NoDup (map fst ix) -> fold_res (add_alias seed) al ix = Ret ix' ->
  NoDup (map fst ix').
Proof.
  induction al as [|a al IH]; intros ix ix' D E; cbn [fold_res] in E; [injection E as <-; exact D|].
  unfold add_alias in E at 1. destruct (string_from_hex_gc (canon_hex a)) as [ca|]; [|discriminate E]. cbn [bind] in E.
  destruct (first_rune ca) as [c|]; [|discriminate E]. cbn [bind] in E.
  destruct (ublock_of c) as [k|]; [|discriminate E]. cbn [bind] in E.
  destruct (find_data_offset ix k ca seed) as [off|]; [|discriminate E]. cbn [bind] in E.
  destruct (string_from_hex_gc (alias_hex a)) as [cl|]; [|discriminate E]. cbn [bind] in E.
  destruct (gs_insert ix cl seed off) as [ix1|] eqn:Ei; [|discriminate E]. cbn [bind] in E.
  apply IH in E; [exact E|]. exact (insert_distinct _ _ _ _ _ D Ei).
Qed.

(** main.go:34-43 with the template executed *)
Lemma generated_rendered printable f legal img csl al :
  generate_text printable f legal img csl al =
  (pl <- pattern_list img f csl ;;
   g <- new_glyph_set_from pl (fs_seed f) ;;
   code <- code_text printable 0 pl ;;
   g <- add_aliases g al (fs_seed f) ;;
   render_template font_file_template (font_file_context printable f legal g code (fs_seed f))).
Proof.
  unfold generate_text. destruct (pattern_list img f csl) as [pl|]; [|reflexivity]. cbn [bind].
  destruct (new_glyph_set_from pl (fs_seed f)) as [g|] eqn:Eg; [|reflexivity]. cbn [bind].
  destruct (code_text printable 0 pl) as [code|]; [|reflexivity]. cbn [bind].
  unfold add_aliases. destruct (fold_res (add_alias (fs_seed f)) al (gs_index g)) as [ix|] eqn:Ea; [|reflexivity]. cbn [bind].
  symmetry. apply font_file_rendered. cbn [gs_index].
  refine (aliases_distinct _ _ _ _ (set_distinct _ _ (GlyphSet [] 0 []) _ _ Eg) Ea). constructor.
Qed.
Lemma usage_printed fl jobs : (c <- new_config fl config_name ;; fonts fl c) = Ret jobs ->
  exists out, render_template usage_template (usage_context confirm jobs) = Ret out /\ usage fl = Run [] (out ++ nl) true.
Proof. intros E. exists (usage_text confirm jobs). split; [apply usage_rendered|]. unfold usage. rewrite E. reflexivity. Qed.
