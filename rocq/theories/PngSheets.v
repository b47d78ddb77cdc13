(** * The PNG files of the repository: what is in their bytes *)
From Coq Require Import ZArith String Ascii.
From Verif Require Import Prim PrimFacts Str FontDefs SpecPaint SpecSheet SpecShot Codegen CodegenText Png Sheets PngFiles.
Local Open Scope N_scope.
Local Open Scope list_scope.

(** Bytes from hexadecimal digits *)
Definition hex_value (c : N) : N := if c <? 58 then c - 48 else c - 87.
Fixpoint unhex (s : list N) : list N :=
  match s with a :: b :: t => hex_value a * 16 + hex_value b :: unhex t | _ => [] end.
Definition file_bytes (parts : list string) : list N := unhex (text_of parts).

(** ** Samples of a row, as a list *)
Definition bit_samples (b : N) : list (list N) :=
  map (fun k => [N.shiftr b k mod 2]) [7; 6; 5; 4; 3; 2; 1; 0].
Definition row_samples (h : png_header) (row : list (list N)) : list (list N) :=
  if ph_depth h =? 8 then row
  else flat_map (fun px => match px with b :: _ => bit_samples b | [] => repeat [] 8 end) row.

Lemma bit_sample b k : (k < 8)%nat -> nth k (bit_samples b) [] = [N.shiftr b (8 - 1 - N.of_nat k) mod 2].
Proof. intros L. do 8 (destruct k as [|k]; [reflexivity|]). lia. Qed.
Lemma flat_nth {A B} (f : A -> list B) (a0 : A) (b0 : B) : forall l i k, (forall a, length (f a) = 8%nat) -> (k < 8)%nat -> (i < length l)%nat ->
  nth (8 * i + k) (flat_map f l) b0 = nth k (f (nth i l a0)) b0.
Proof.
  induction l as [|a l IH]; intros i k F Lk Li; cbn [length] in Li; [lia|]. cbn [flat_map]. destruct i as [|i].
  - rewrite app_nth1 by (rewrite F; lia). reflexivity.
  - rewrite app_nth2 by (rewrite F; lia). rewrite F. replace (8 * S i + k - 8)%nat with (8 * i + k)%nat by lia.
    apply IH; [exact F|exact Lk|lia].
Qed.
Lemma sample_nth h row x : ph_depth h = 1 \/ ph_depth h = 8 -> (x < length (row_samples h row))%nat ->
  sample h row x = nth x (row_samples h row) [].
Proof.
  intros D L. unfold sample, row_samples in *. destruct D as [D|D]; rewrite D in *; [|reflexivity].
  change (1 =? 8) with false in *. cbv iota in *. rewrite N.mul_1_r.
  set (f := fun px : list N => match px with b :: _ => bit_samples b | [] => repeat [] 8 end) in *.
  assert (F : forall px, length (f px) = 8%nat) by (intros [|b t]; reflexivity).
  assert (Ll : length (flat_map f row) = (8 * length row)%nat).
  { clear - F. induction row as [|a row IH]; [reflexivity|]. cbn [flat_map length]. rewrite app_length, F, IH. lia. }
  rewrite Ll in L.
  pose proof (Nat.div_mod x 8 ltac:(lia)) as Dm. pose proof (Nat.mod_upper_bound x 8 ltac:(lia)) as Mb.
  set (i := (x / 8)%nat) in *. set (k := Nat.modulo x 8) in *.
  replace (N.to_nat (N.of_nat x / 8)) with i.
  2:{ unfold i. apply Nat2N.inj. rewrite N2Nat.id. rewrite Nat2N.inj_div. reflexivity. }
  replace (N.of_nat x mod 8) with (N.of_nat k).
  2:{ unfold k. rewrite Nat2N.inj_mod. reflexivity. }
  rewrite Dm, (flat_nth f [] []) by (exact F || lia). unfold f. destruct (nth i row []) as [|b t].
  - rewrite nth_repeat. reflexivity.
  - rewrite bit_sample by lia. reflexivity.
Qed.

(** ** Black pixels *)
Definition ink (p : png) (inks : list bool) (s : list N) : bool :=
  match s with
  | [v] => if ph_colour (p_header p) =? 3 then nth (N.to_nat v) inks true else v =? 0
  | _ => false
  end.
Definition palette_inks (p : png) : list bool := map (fun '(r, _, _) => r =? 0) (p_palette p).

Lemma red_opaque r g b : red_of (r, g, b, 255) = r * 257.
Proof. unfold red_of. rewrite N.div_mul by discriminate. reflexivity. Qed.
Lemma ink_spec p v : ph_colour (p_header p) = 0 \/ ph_colour (p_header p) = 3 ->
  ph_depth (p_header p) = 1 \/ ph_depth (p_header p) = 8 ->
  ink p (palette_inks p) [v] = (red_of (colour_of p [v]) =? 0).
Proof.
  intros C D. unfold ink, colour_of. destruct C as [C|C]; rewrite C.
  - change (0 =? 3) with false. cbv iota. rewrite red_opaque.
    assert (K : exists k, 0 < k /\ 255 / (2 ^ ph_depth (p_header p) - 1) = k).
    { destruct D as [-> | ->]; [exists 255|exists 1]; split; reflexivity. }
    destruct K as (k & Pk & ->). destruct (N.eqb_spec v 0) as [->|Nv]; [reflexivity|].
    symmetry. apply N.eqb_neq. nia.
  - change (3 =? 3) with true. cbv iota. unfold palette_inks.
    change true with ((fun '(r, _, _) => r =? 0) (0, 0, 0)) at 1. rewrite map_nth.
    destruct (nth (N.to_nat v) (p_palette p) (0, 0, 0)) as [[r g] b]. rewrite red_opaque.
    destruct (N.eqb_spec r 0) as [->|Nr]; [reflexivity|]. symmetry. apply N.eqb_neq. lia.
Qed.

Fixpoint mask (p : png) (inks : list bool) (samples : list (list N)) : N :=
  match samples with
  | [] => 0
  | s :: t => let m := mask p inks t in if ink p inks s then N.succ_double m else N.double m
  end.
Lemma mask_bit p inks : forall samples x, (x < length samples)%nat ->
  N.testbit (mask p inks samples) (N.of_nat x) = ink p inks (nth x samples []).
Proof.
  induction samples as [|s t IH]; intros x L; cbn [length] in L; [lia|]. cbn [mask]. destruct x as [|x].
  - cbn [nth]. destruct (ink p inks s); [rewrite N.succ_double_spec; apply N.testbit_odd_0|].
    rewrite N.double_spec. apply N.testbit_even_0.
  - cbn [nth]. rewrite <- (IH x) by lia. rewrite Nat2N.inj_succ.
    destruct (ink p inks s); [rewrite N.succ_double_spec; apply N.testbit_odd_succ|rewrite N.double_spec; apply N.testbit_even_succ]; apply N.le_0_l.
Qed.

(** ** The pixels of a sheet *)
Fixpoint rows_okb (p : png) (inks : list bool) (w : nat) (rows : list (list (list N))) (masks : list N) : bool :=
  match rows, masks with
  | [], [] => true
  | r :: rows', m :: masks' =>
      let s := firstn w (row_samples (p_header p) r) in
      Nat.eqb (length s) w && forallb (fun px => Nat.eqb (length px) 1) s && (mask p inks s =? m) && rows_okb p inks w rows' masks'
  | _, _ => false
  end.
Definition sheet_okb (file : list N) (w : N) (masks : list N) : bool :=
  match png_decode file with
  | Panic => false
  | Ret p =>
      let h := p_header p in
      (ph_width h =? w) && (ph_height h =? N.of_nat (length masks)) &&
      ((ph_colour h =? 0) || (ph_colour h =? 3)) && ((ph_depth h =? 1) || (ph_depth h =? 8)) &&
      rows_okb p (palette_inks p) (N.to_nat w) (p_rows p) masks
  end.

(** An image has the black pixels of a sheet *)
Definition shows_rows (img : image) (w : N) (rows : list N) : Prop :=
  img_max_y img = Z.of_nat (length rows) /\
  forall x y, (0 <= x < Z.of_N w)%Z -> (0 <= y < Z.of_nat (length rows))%Z ->
    (img_red img x y = 0 <-> black rows (Z.to_nat x) (Z.to_nat y) = true).

Lemma rows_sound p inks w : forall rows masks, rows_okb p inks w rows masks = true ->
  length rows = length masks /\
  forall x y, (x < w)%nat -> (y < length rows)%nat ->
    let s := row_samples (p_header p) (nth y rows []) in
    (w <= length s)%nat /\ (exists v, nth x s [] = [v]) /\ ink p inks (nth x s []) = N.testbit (nth y masks 0) (N.of_nat x).
Proof.
  induction rows as [|r rows IH]; intros [|m masks] E; cbn [rows_okb] in E; try discriminate.
  - split; [reflexivity|]. cbn [length]. intros. lia.
  - apply andb_prop in E. destruct E as [E E4]. apply andb_prop in E. destruct E as [E E3]. apply andb_prop in E. destruct E as [E1 E2].
    apply Nat.eqb_eq in E1. apply N.eqb_eq in E3. destruct (IH masks E4) as [L H]. split; [cbn [length]; lia|].
    intros x y Lx Ly. destruct y as [|y]; [|apply H; cbn [length] in Ly; lia]. cbn [nth].
    set (s := row_samples (p_header p) r) in *. cbv zeta. rewrite firstn_length in E1.
    assert (Nx : nth x (firstn w s) [] = nth x s []).
    { rewrite <- (firstn_skipn w s) at 2. symmetry. apply app_nth1. rewrite firstn_length. lia. }
    split; [lia|]. rewrite <- Nx. split.
    + rewrite forallb_forall in E2. specialize (E2 (nth x (firstn w s) []) ltac:(apply nth_In; rewrite firstn_length; lia)).
      apply Nat.eqb_eq in E2. destruct (nth x (firstn w s) []) as [|v [|]]; try discriminate. exists v. reflexivity.
    + rewrite <- E3. symmetry. apply mask_bit. rewrite firstn_length. lia.
Qed.

Lemma sheet_sound file w masks : sheet_okb file w masks = true ->
  exists p, png_decode file = Ret p /\ ph_width (p_header p) = w /\ shows_rows (png_image p) w masks.
Proof.
  unfold sheet_okb. destruct (png_decode file) as [p|]; [|discriminate]. intros E. exists p. split; [reflexivity|].
  apply andb_prop in E. destruct E as [E E5]. apply andb_prop in E. destruct E as [E E4]. apply andb_prop in E. destruct E as [E E3].
  apply andb_prop in E. destruct E as [E1 E2]. apply N.eqb_eq in E1, E2. apply orb_prop in E3, E4. rewrite !N.eqb_eq in E3, E4.
  apply rows_sound in E5. destruct E5 as [L H]. split; [exact E1|].
  split; [cbn [png_image img_max_y]; rewrite E2; lia|]. intros x y Lx Ly. cbn [png_image img_red].
  rewrite E1, E2.
  destruct (Z.leb_spec 0 x) as [_|]; [|lia]. destruct (Z.ltb_spec x (Z.of_N w)) as [_|]; [|lia].
  destruct (Z.leb_spec 0 y) as [_|]; [|lia]. destruct (Z.ltb_spec y (Z.of_N (N.of_nat (length masks)))) as [_|]; [|lia].
  cbn [andb]. destruct (H (Z.to_nat x) (Z.to_nat y) ltac:(lia) ltac:(lia)) as (Ls & (v & Ev) & Ei).
  unfold png_colour. rewrite sample_nth; [|exact E4|lia]. rewrite Ev in *.
  rewrite ink_spec in Ei by assumption. unfold black. rewrite <- Ei. rewrite N.eqb_eq. reflexivity.
Qed.

(** ** The pixels of a screenshot *)
Definition shot_colour (c : ascii) : N * N * N :=
  if Ascii.eqb c "#" then (51, 51, 51) else if Ascii.eqb c "." then (167, 186, 202) else (100, 129, 120).
Fixpoint shot_rowb (row : list (list N)) (s : string) : bool :=
  match row, s with
  | [], EmptyString => true
  | (r :: g :: b :: a) :: row', String c s' =>
      let '(cr, cg, cb) := shot_colour c in
      (r =? cr) && (g =? cg) && (b =? cb) && match a with [] => true | a :: _ => a =? 255 end && shot_rowb row' s'
  | _, _ => false
  end.
Fixpoint shot_rowsb (rows : list (list (list N))) (shot : list string) : bool :=
  match rows, shot with
  | [], [] => true
  | r :: rows', s :: shot' => shot_rowb r s && shot_rowsb rows' shot'
  | _, _ => false
  end.
Definition shot_fileb (file : list N) (w : N) (shot : list string) : bool :=
  match png_decode file with
  | Panic => false
  | Ret p =>
      let h := p_header p in
      (ph_width h =? w) && (ph_height h =? N.of_nat (length shot)) && (ph_depth h =? 8) &&
      (if ph_colour h =? 2 then forallb (forallb (fun px => Nat.eqb (length px) 3)) (p_rows p)
       else (ph_colour h =? 6) && forallb (forallb (fun px => Nat.eqb (length px) 4)) (p_rows p)) &&
      shot_rowsb (p_rows p) shot
  end.

Lemma shot_row_sound row : forall s, shot_rowb row s = true -> forall x c, String.get x s = Some c ->
  exists r g b a, nth_error row x = Some (r :: g :: b :: a) /\ (r, g, b) = shot_colour c /\ (forall a0 t, a = a0 :: t -> a0 = 255).
Proof.
  induction row as [|px row IH]; intros s E x c G; [destruct s; [discriminate G|discriminate E]|].
  destruct px as [|r [|g [|b a]]]; try discriminate E; try (destruct s; discriminate E).
  cbn [shot_rowb] in E. destruct s as [|c0 s]; [discriminate|]. destruct (shot_colour c0) as [[cr cg] cb] eqn:Ec.
  apply andb_prop in E. destruct E as [E E5]. apply andb_prop in E. destruct E as [E E4]. apply andb_prop in E. destruct E as [E E3].
  apply andb_prop in E. destruct E as [E1 E2]. apply N.eqb_eq in E1, E2, E3. subst cr cg cb.
  destruct x as [|x]; cbn [String.get] in G.
  - injection G as <-. exists r, g, b, a. split; [reflexivity|]. split; [symmetry; exact Ec|].
    intros a0 t ->. apply N.eqb_eq in E4. exact E4.
  - cbn [nth_error]. apply (IH s E5 x c G).
Qed.
Lemma shot_rows_sound rows : forall shot, shot_rowsb rows shot = true -> forall y s, nth_error shot y = Some s ->
  exists row, nth_error rows y = Some row /\ shot_rowb row s = true.
Proof.
  induction rows as [|r rows IH]; intros [|s0 shot] E y s G; try discriminate E; [destruct y; discriminate|].
  cbn [shot_rowsb] in E. apply andb_prop in E. destruct E as [E1 E2]. destruct y as [|y]; cbn [nth_error] in *.
  - injection G as <-. exists r. split; [reflexivity|exact E1].
  - apply (IH shot E2 y s G).
Qed.

Lemma shot_file_sound file w shot : shot_fileb file w shot = true ->
  exists p, png_decode file = Ret p /\ ph_width (p_header p) = w /\ ph_height (p_header p) = N.of_nat (length shot) /\
  forall x y c, shot_pixel shot x y = Some c -> png_colour p x y = (shot_colour c, 255).
Proof.
  unfold shot_fileb. destruct (png_decode file) as [p|]; [|discriminate]. intros E. exists p. split; [reflexivity|].
  apply andb_prop in E. destruct E as [E E5]. apply andb_prop in E. destruct E as [E E4]. apply andb_prop in E. destruct E as [E E3].
  apply andb_prop in E. destruct E as [E1 E2]. apply N.eqb_eq in E1, E2, E3. split; [exact E1|]. split; [exact E2|].
  intros x y c G. unfold shot_pixel in G. destruct (nth_error shot y) as [s|] eqn:Es; [|discriminate].
  destruct (shot_rows_sound _ _ E5 y s Es) as (row & Er & Ew). destruct (shot_row_sound row s Ew x c G) as (r & g & b & a & Ex & Ec & Ea).
  unfold png_colour, sample. rewrite E3. change (8 =? 8) with true. cbv iota.
  rewrite (nth_error_nth _ _ [] Er), (nth_error_nth _ _ [] Ex). unfold colour_of.
  assert (Ir : In row (p_rows p)) by (eapply nth_error_In; exact Er).
  assert (Ip : In (r :: g :: b :: a) row) by (eapply nth_error_In; exact Ex).
  destruct (N.eqb_spec (ph_colour (p_header p)) 2) as [C|_].
  - rewrite forallb_forall in E4. specialize (E4 row Ir). rewrite forallb_forall in E4. specialize (E4 _ Ip). apply Nat.eqb_eq in E4.
    destruct a; [|discriminate E4]. rewrite C, <- Ec. reflexivity.
  - apply andb_prop in E4. destruct E4 as [C E4]. apply N.eqb_eq in C.
    rewrite forallb_forall in E4. specialize (E4 row Ir). rewrite forallb_forall in E4. specialize (E4 _ Ip). apply Nat.eqb_eq in E4.
    destruct a as [|a0 [|]]; try discriminate E4. rewrite C, <- Ec. rewrite (Ea a0 [] eq_refl). reflexivity.
Qed.
