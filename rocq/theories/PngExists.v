(** * Every image has a PNG file *)
From Coq Require Import ZArith.
From Verif Require Import Prim PrimFacts Str FontDefs SpecPaint SpecSheet Codegen CodegenText Png SpecDeflate SpecPng HuffProofs InflateProofs PngProofs PngSheets.

(** Any data can be stored *)
Lemma store_exists : forall n raw out rest, (length raw <= n * 255)%nat -> Forall is_byte raw -> Nat.modulo (length rest) 8 = 0%nat ->
  exists bits, Nat.modulo (length bits) 8 = 0%nat /\ deflated out (bits ++ rest) (out ++ raw) rest.
Proof.
  induction n as [|n IH]; intros raw out rest L F M.
  - destruct raw; [|cbn [length] in L; lia].
    exists (true :: false :: false :: repeat false 5 ++ lsb_bits 16 0 ++ lsb_bits 16 0xFFFF).
    split; [reflexivity|]. rewrite app_nil_r. cbn [app]. apply last_block.
    rewrite <- (app_nil_r out) at 2. rewrite <- !app_assoc. apply (stored_block out (repeat false 5) [] rest); cbn; [lia|exact M|lia|constructor].
  - set (a := firstn 255 raw). set (b := skipn 255 raw).
    assert (Er : raw = a ++ b) by (symmetry; apply firstn_skipn).
    assert (La : (length a <= 255)%nat) by (unfold a; rewrite firstn_length; lia).
    destruct (IH b (out ++ a) rest) as (bits & Mb & D);
      [unfold b; rewrite skipn_length; lia|apply forall_skipn, F|exact M|].
    rewrite <- app_assoc, <- Er in D.
    exists (false :: (false :: false :: repeat false 5 ++ lsb_bits 16 (N.of_nat (length a)) ++ lsb_bits 16 (0xFFFF - N.of_nat (length a)) ++ bytes_bits a) ++ bits).
    assert (Mr : Nat.modulo (length (bits ++ rest)) 8 = 0%nat).
    { rewrite app_length, Nat.add_mod, Mb, M by lia. reflexivity. }
    split.
    + cbn [length app]. rewrite !app_length, !lsb_length, bytes_length, repeat_length.
      replace (S (S (S (5 + (16 + (16 + 8 * length a)) + length bits))))%nat with (length bits + (5 + length a) * 8)%nat by lia.
      rewrite Nat.mod_add by lia. exact Mb.
    + cbn [app]. rewrite <- !app_assoc. eapply next_block; [|exact D].
      apply (stored_block out (repeat false 5) a (bits ++ rest)); [cbn; lia|exact Mr|lia|apply forall_firstn, F].
Qed.

Lemma zlib_exists raw : Forall is_byte raw -> exists stream, Forall is_byte stream /\ zlib_stream stream raw.
Proof.
  intros F. destruct (store_exists (length raw) raw [] (bytes_bits (be4 (checksum raw)))) as (bits & M & D);
    [lia|exact F|apply bytes_aligned|].
  destruct (bits_are_bytes (length bits / 8) bits) as (body & _ & Fb & Eb).
  { pose proof (Nat.div_mod (length bits) 8 ltac:(lia)). lia. }
  exists (0x78 :: 0x01 :: body ++ be4 (checksum raw)). split.
  - constructor; [reflexivity|]. constructor; [reflexivity|]. apply Forall_app. split; [exact Fb|]. apply be4_bytes, checksum_bound.
  - exists 0x78, 0x01, (body ++ be4 (checksum raw)), (bytes_bits (be4 (checksum raw))), [], [].
    rewrite bytes_bits_app, <- Eb. repeat match goal with |- _ /\ _ => split end; try reflexivity; try lia; [exact D|cbn [length]; lia].
Qed.

(** and divided into chunks *)
Lemma pieces_exist : forall n (l : list N), (length l <= n * 255)%nat ->
  exists ds, concat ds = l /\ ds <> [] /\ Forall (fun d => (length d <= 255)%nat) ds.
Proof.
  induction n as [|n IH]; intros l L.
  - exists [l]. cbn [concat]. rewrite app_nil_r. repeat split; [discriminate|]. constructor; [lia|constructor].
  - destruct (IH (skipn 255 l)) as (ds & Ed & _ & Fd); [rewrite skipn_length; lia|].
    exists (firstn 255 l :: ds). cbn [concat]. rewrite Ed, firstn_skipn. split; [reflexivity|]. split; [discriminate|].
    constructor; [rewrite firstn_length; lia|exact Fd].
Qed.

Lemma filtered_bytes f b : forall n row prev l ul, row_shape n b row -> row_shape n b prev -> pixel_shape b l -> pixel_shape b ul ->
  Forall is_byte (filtered_row f l ul row prev).
Proof.
  intros n row prev l ul Sr Sp Sl Sul. destruct (filtered_row_shape f b n row prev l ul Sr Sp Sl Sul) as (frow & [_ F] & -> & _).
  apply Forall_forall. intros x I. apply in_concat in I. destruct I as (px & Ipx & Ix).
  rewrite Forall_forall in F. destruct (F px Ipx) as [_ Fp]. rewrite Forall_forall in Fp. apply Fp, Ix.
Qed.
Lemma rows_are_bytes n b : forall filters rows prev, Forall is_byte filters -> Forall (row_shape n b) rows -> row_shape n b prev ->
  Forall is_byte (rows_bytes b filters prev rows).
Proof.
  induction filters as [|f fs IH]; intros [|row rows] prev Ff Fr Sp; cbn [rows_bytes]; try constructor.
  - inversion Ff; assumption.
  - inversion Ff; inversion Fr; subst. apply Forall_app. split; [|apply IH; assumption].
    apply (filtered_bytes f b n); try assumption; apply zero_pixel.
Qed.

Lemma chunk_is_bytes c : good_chunk c -> Forall is_byte (ch_type c) -> Forall is_byte (ch_data c) -> Forall is_byte (chunk_bytes c).
Proof.
  intros [_ L] Ft Fd. unfold chunk_bytes. repeat (apply Forall_app; split); try assumption.
  - apply be4_bytes. change (2 ^ 32) with 4294967296. lia.
  - apply be4_bytes, crc_bound. apply Forall_app. split; assumption.
Qed.

(** An image that PNG can have *)
Definition good_png (p : png) : Prop :=
  let h := p_header p in
  good_header h /\ rows_shape (N.to_nat (ph_height h)) (row_pixels h) (pixel_bytes h) (p_rows p) /\
  (if ph_colour h =? 3 then good_palette h (p_palette p) /\ Forall is_byte (palette_bytes (p_palette p)) else p_palette p = []).

Lemma palette_length p : length (palette_bytes p) = (3 * length p)%nat.
Proof. induction p as [|[[r g] b] t IH]; [reflexivity|]. unfold palette_bytes in *. cbn [flat_map]. rewrite app_length, IH. cbn [length]. lia. Qed.

Lemma png_exists p filters : good_png p -> length filters = N.to_nat (ph_height (p_header p)) -> Forall (fun f => f <= 4) filters ->
  exists file, Forall is_byte file /\ png_decode file = Ret p.
Proof.
  intros (Gh & Sr & P) Lf Ff. destruct p as [h pal rows]. cbn [p_header p_palette p_rows] in *.
  set (n := row_pixels h) in *. set (b := pixel_bytes h) in *.
  set (raw := rows_bytes b filters (repeat (repeat 0 b) n) rows).
  assert (Fraw : Forall is_byte raw).
  { apply (rows_are_bytes n b); [|apply Sr|apply zero_row]. eapply Forall_impl; [|exact Ff]. unfold is_byte. cbn. intros. lia. }
  destruct (zlib_exists raw Fraw) as (stream & Fs & Z).
  destruct (pieces_exist (length stream) stream ltac:(lia)) as (ds & Ed & Nd & Fd).
  set (before := if ph_colour h =? 3 then [Chunk PLTE (palette_bytes pal)] else []).
  set (chunks := Chunk IHDR (header_bytes h) :: before ++ map (Chunk IDAT) ds ++ [] ++ [Chunk IEND []]).
  assert (Dl : ph_depth h <= 8).
  { destruct Gh as (_ & _ & [[_ [H|[H|[H|[H|[]]]]]]|[_ H]]); lia. }
  assert (G : Forall (fun c => good_chunk c /\ Forall is_byte (ch_type c) /\ Forall is_byte (ch_data c)) chunks).
  { unfold chunks. constructor; [|apply Forall_app; split; [|apply Forall_app; split]].
    - split; [split; [reflexivity|cbn; lia]|]. split; [repeat constructor|]. cbn [ch_data]. unfold header_bytes.
      destruct Gh as ([_ W] & [_ H] & D).
      apply Forall_app. split; [apply be4_bytes; change (2 ^ 32) with 4294967296; lia|].
      apply Forall_app. split; [apply be4_bytes; change (2 ^ 32) with 4294967296; lia|].
      constructor; [unfold is_byte; lia|]. constructor; [|repeat constructor].
      unfold is_byte. destruct D as [[[D|[D|[]]] _]|[[D|[D|[D|[]]]] _]]; lia.
    - unfold before. destruct (ph_colour h =? 3); [|constructor]. destruct P as [(_ & _ & Pl) Pb]. constructor; [|constructor].
      split; [split; [reflexivity|]|split; [repeat constructor|exact Pb]]. cbn [ch_data]. rewrite palette_length.
      assert (2 ^ ph_depth h <= 2 ^ 8) by (apply N.pow_le_mono_r; [discriminate|exact Dl]). change (2 ^ 8) with 256 in *. lia.
    - apply Forall_forall. intros c I. apply in_map_iff in I. destruct I as (d & <- & I). rewrite Forall_forall in Fd. specialize (Fd d I). cbn beta in Fd.
      split; [split; [reflexivity|cbn [ch_data]; lia]|]. split; [repeat constructor|]. cbn [ch_data]. apply Forall_forall. intros x Ix.
      rewrite <- Ed in Fs. rewrite Forall_forall in Fs. apply Fs, in_concat. exists d. split; assumption.
    - constructor; [|constructor]. split; [split; [reflexivity|cbn; lia]|]. split; repeat constructor. }
  exists (signature ++ flat_map chunk_bytes chunks ++ []). split.
  - apply Forall_app. split; [repeat constructor|]. rewrite app_nil_r. apply Forall_forall. intros x I.
    apply in_flat_map in I. destruct I as (c & Ic & Ix). rewrite Forall_forall in G. destruct (G c Ic) as (G1 & G2 & G3).
    pose proof (chunk_is_bytes c G1 G2 G3) as Fc. rewrite Forall_forall in Fc. apply Fc, Ix.
  - apply png_complete. exists (if ph_colour h =? 3 then Some pal else None), before, ds, [], [], raw, filters. cbv zeta.
    cbn [p_header p_palette p_rows]. rewrite Ed. repeat match goal with |- _ /\ _ => split end; try assumption; try reflexivity.
    + eapply Forall_impl; [|exact G]. intros c Gc. apply Gc.
    + unfold before. destruct (ph_colour h =? 3); [|constructor]. destruct P as [Gp _]. split; [exact Gp|].
      exists [], []. split; [reflexivity|constructor].
    + split; [constructor|discriminate].
    + destruct (ph_colour h =? 3); [reflexivity|exact P].
Qed.

(** The sheets have one, with a grey value for each pixel *)
Definition grey_rows (w : nat) (rows : list N) : list (list (list N)) :=
  map (fun m => map (fun x => [if N.testbit m (N.of_nat x) then 0 else 255]) (seq 0 w)) rows.
Lemma nth_map_in {A B} (f : A -> B) a0 b0 : forall l i, (i < length l)%nat -> nth i (map f l) b0 = f (nth i l a0).
Proof.
  induction l as [|a l IH]; intros [|i] L; cbn [length] in L; try lia; [reflexivity|]. cbn [map nth]. apply IH. lia.
Qed.
Lemma sheet_file_exists w rows : 1 <= w <= 0x7FFFFFFF -> 1 <= N.of_nat (length rows) <= 0x7FFFFFFF ->
  exists b p, png_decode b = Ret p /\ ph_width (p_header p) = w /\ shows_rows (png_image p) w rows.
Proof.
  intros Hw Hh. set (h := PngHeader w (N.of_nat (length rows)) 8 0).
  set (p := Png h [] (grey_rows (N.to_nat w) rows)).
  destruct (png_exists p (repeat 0 (length rows))) as (file & _ & E).
  - split; [split; [exact Hw|split; [exact Hh|left; split; cbn; auto]]|]. split; [|reflexivity].
    cbn [p_header p_rows p]. split; [unfold grey_rows; rewrite map_length; cbn [h ph_height]; lia|].
    unfold grey_rows. apply Forall_forall. intros r I. apply in_map_iff in I. destruct I as (m & <- & _).
    split; [rewrite map_length, seq_length; reflexivity|]. apply Forall_forall. intros px Ip. apply in_map_iff in Ip. destruct Ip as (x & <- & _).
    split; [reflexivity|]. constructor; [|constructor]. destruct (N.testbit m (N.of_nat x)); reflexivity.
  - rewrite repeat_length. cbn [p_header p h ph_height]. lia.
  - apply Forall_forall. intros x I. apply repeat_spec in I. subst x. lia.
  - exists file, p. split; [exact E|]. split; [reflexivity|]. split; [cbn [png_image img_max_y p p_header h ph_height]; lia|].
    intros x y Lx Ly. cbn [png_image img_red p p_header h ph_width ph_height].
    destruct (Z.leb_spec 0 x) as [_|]; [|lia]. destruct (Z.ltb_spec x (Z.of_N w)) as [_|]; [|lia].
    destruct (Z.leb_spec 0 y) as [_|]; [|lia]. destruct (Z.ltb_spec y (Z.of_N (N.of_nat (length rows)))) as [_|]; [|lia].
    cbn [andb]. unfold png_colour, sample. cbn [p_header p_rows p h ph_depth]. change (8 =? 8) with true. cbv iota.
    unfold grey_rows. rewrite (nth_map_in _ 0) by lia. rewrite (nth_map_in _ 0%nat) by (rewrite seq_length; lia). rewrite seq_nth by lia.
    unfold black. cbn [Nat.add]. destruct (N.testbit (nth (Z.to_nat y) rows 0) (N.of_nat (Z.to_nat x))); split; intros Q; try reflexivity; discriminate.
Qed.
