(** * Properties C64 and C65: PNG files *)
From Coq Require Import ZArith String Ascii.
From Verif Require Import Prim Str FontDefs Fonts SpecPaint SpecSheet SpecShot Codegen CodegenText Sheets Screenshots IndexLatin.
From Verif Require Import Png SpecDeflate SpecPng HuffProofs InflateProofs PngProofs SpecPixel SpecCrc PngPixels PngCrc PngFiles PngSheets PngExists PngCheck.
From Verif Require Import Render SpecRust Config Files RenderFiles MainProofs PngRun.
From Verif Require Import Geom Blit Demo Wasm SpecWasm SpecDemo DemoProofs WasmProofs PropsDemo PropsShots.
Local Open Scope N_scope.
Local Open Scope list_scope.

(** C64: compressed data are read exactly if they are blocks of RFC 1951, and as what
    those say; whatever follows them is left *)
Theorem C64_deflate : forall bits rest data,
  inflate_blocks (S (length bits)) bits 0 [] = Ret (rest, data) <-> deflated [] bits data rest.
Proof. exact inflate_iff. Qed.
Print Assumptions C64_deflate.

(** C64: a zlib stream needs the right header and checksum *)
Theorem C64_zlib : forall stream data, zlib_decode stream = Ret data <-> zlib_stream stream data.
Proof. exact zlib_iff. Qed.
Print Assumptions C64_zlib.

(** C64: an image is read from a file exactly if the file is a PNG file of it *)
Theorem C64_png : forall file p, Forall (fun b => b < 256) file -> (png_decode file = Ret p <-> png_file file p).
Proof. exact png_iff. Qed.
Print Assumptions C64_png.

(** C64: every image has a file, with any choice of filters for its rows *)
Theorem C64_every_image : forall p filters, good_png p ->
  length filters = N.to_nat (ph_height (p_header p)) -> Forall (fun f => f <= 4) filters ->
  exists file, Forall (fun b => b < 256) file /\ png_decode file = Ret p.
Proof. exact png_exists. Qed.
Print Assumptions C64_every_image.

(** C64: no image is read from a file in which one byte of the type, the data or the
    check value of a chunk is wrong *)
Theorem C64_damage_detected : forall chunks c body rest,
  Forall good_chunk chunks -> Forall (none_of [IEND]) chunks ->
  good_chunk c -> Forall is_byte (ch_type c ++ ch_data c) -> Forall is_byte body -> Forall is_byte rest ->
  one_changed (ch_type c ++ ch_data c ++ be4 (crc32 (ch_type c ++ ch_data c))) body ->
  png_decode (signature ++ flat_map chunk_bytes chunks ++ be4 (N.of_nat (length (ch_data c))) ++ body ++ rest) = Panic.
Proof. exact png_damaged. Qed.
Print Assumptions C64_damage_detected.

(** C64: nor if the bits that are wrong are within 32 consecutive ones of its type and data *)
Theorem C64_burst_detected : forall chunks c c' rest pre x y post,
  Forall good_chunk chunks -> Forall (none_of [IEND]) chunks -> good_chunk c ->
  Forall is_byte (ch_type c ++ ch_data c) -> Forall is_byte (ch_type c' ++ ch_data c') -> Forall is_byte rest ->
  length (ch_type c') = length (ch_type c) -> length (ch_data c') = length (ch_data c) ->
  bytes_bits (ch_type c ++ ch_data c) = pre ++ x ++ post -> bytes_bits (ch_type c' ++ ch_data c') = pre ++ y ++ post ->
  length x = length y -> (length x <= 32)%nat -> x <> y ->
  png_decode (signature ++ flat_map chunk_bytes chunks ++ be4 (N.of_nat (length (ch_data c))) ++ ch_type c' ++ ch_data c'
              ++ be4 (crc32 (ch_type c ++ ch_data c)) ++ rest) = Panic.
Proof. exact png_burst. Qed.
Print Assumptions C64_burst_detected.

(** C64: the check value is the remainder of the standard *)
Theorem C64_check_value : forall data, Forall is_byte data ->
  crc32 data < 2 ^ 32 /\ lsb_bits 32 (crc32 data) = check_bits data.
Proof. exact crc_value. Qed.
Print Assumptions C64_check_value.

(** C64: rows have the bytes that their pixels need, and the colour of a pixel is that of
    its samples, which follow each other in the bits of the row *)
Theorem C64_pixels : forall file p, Forall (fun b => b < 256) file -> png_decode file = Ret p ->
  forall x y, (x < N.to_nat (ph_width (p_header p)))%nat -> (y < N.to_nat (ph_height (p_header p)))%nat ->
  let row := concat (nth y (p_rows p) []) in
  N.of_nat (length row) = (ph_width (p_header p) * N.of_nat (samples_per_pixel (ph_colour (p_header p))) * ph_depth (p_header p) + 7) / 8 /\
  shown_as p (samples_at (p_header p) row x) (png_colour p x y).
Proof. exact pixels_shown. Qed.
Print Assumptions C64_pixels.

(** C64: to the generator a pixel is black if its colour has no red, or is transparent *)
Theorem C64_ink : forall file p, Forall (fun b => b < 256) file -> png_decode file = Ret p ->
  forall x y, (x < N.to_nat (ph_width (p_header p)))%nat -> (y < N.to_nat (ph_height (p_header p)))%nat ->
  (img_red (png_image p) (Z.of_nat x) (Z.of_nat y) = 0 <->
   exists r g b a, shown_as p (samples_at (p_header p) (concat (nth y (p_rows p) [])) x) (r, g, b, a) /\ (r = 0 \/ a = 0)).
Proof. exact ink_shown. Qed.
Print Assumptions C64_ink.

(** Two bits per pixel; all four levels of grey; the check value of an empty IEND chunk *)
Example C64_case_samples :
  map (samples_at (PngHeader 5 1 2 0) [0x1B; 0x40]) [0; 1; 2; 3; 4]%nat = [[0]; [1]; [2]; [3]; [1]] /\
  map (fun v => fst (fst (fst (colour_of (Png (PngHeader 5 1 2 0) [] []) [v])))) [0; 1; 2; 3] = [0; 85; 170; 255].
Proof. split; reflexivity. Qed.
Example C64_case_check : check_bits IEND = lsb_bits 32 0xAE426082.
Proof. reflexivity. Qed.

(** Data with codes of their own, and a small image with five filters in two data chunks *)
Definition case_deflated : list N := 
  [37; 140; 9; 14; 192; 64; 8; 2; 7; 216; 109; 250; 255; 23; 23; 173; 137; 40; 71; 32; 70; 200; 16; 10; 230; 4;
   116; 216; 209; 191; 145; 120; 43; 219; 7; 55; 156; 17; 38; 173; 178; 133; 161; 207; 252; 143; 21; 116; 235;
   235; 54; 31; 91; 91; 192; 28; 73; 219; 88; 213; 31].
Definition case_data : list N := 
  [0; 3; 2; 0; 1; 0; 1; 2; 0; 0; 3; 0; 2; 0; 0; 2; 0; 4; 3; 0; 0; 1; 4; 0; 0; 0; 0; 0; 0; 1; 0; 0; 0; 1; 0; 0; 3;
   1; 1; 0; 8; 3; 0; 0; 2; 2; 4; 0; 2; 1; 0; 1; 3; 3; 1; 1; 0; 0; 2; 0; 0; 1; 2; 1; 0; 0; 1; 2; 1; 0; 1; 0; 0; 2;
   6; 1; 0; 0; 1; 6; 2; 1; 3; 0; 1; 5; 1; 1; 0; 1; 5; 0; 2; 2; 3; 2; 2; 1; 1; 0; 0; 3; 1; 0; 1; 1; 0; 0; 1; 1; 1;
   1; 0; 0; 0; 1; 3; 2; 2; 2].
Example C64_case_deflate :
  exists rest, inflate_blocks (S (length (bytes_bits case_deflated))) (bytes_bits case_deflated) 0 [] = Ret (rest, case_data)
    /\ (length rest < 8)%nat.
Proof. eexists. split; [vm_compute; reflexivity|]. cbn [length]. lia. Qed.
Definition case_png : list N :=
  [137; 80; 78; 71; 13; 10; 26; 10; 0; 0; 0; 13; 73; 72; 68; 82; 0; 0; 0; 3; 0; 0; 0; 5; 8; 0; 0; 0; 0; 165; 26; 9; 126;
   0; 0; 0; 3; 116; 69; 88; 116; 97; 0; 98; 220; 73; 162; 59; 0; 0; 0; 7; 73; 68; 65; 84; 120; 1; 99; 224; 58; 33; 199;
   245; 3; 248; 222; 0; 0; 0; 21; 73; 68; 65; 84; 200; 189; 57; 149; 137; 241; 27; 43; 243; 23; 61; 113; 22; 225; 165;
   29; 0; 52; 210; 5; 147; 106; 120; 252; 180; 0; 0; 0; 0; 73; 69; 78; 68; 174; 66; 96; 130; 120; 120].
Example C64_case_png : png_decode case_png = Ret (Png (PngHeader 3 5 8 0) []
  [[[10]; [200]; [30]]; [[11]; [190]; [35]]; [[12]; [180]; [40]]; [[250]; [5]; [45]]; [[13]; [170]; [50]]]).
Proof. vm_compute. reflexivity. Qed.
Example C64_case_damaged : png_decode (upd case_png 44 221) = Panic /\ png_decode (upd case_png 62 198) = Panic.
Proof. split; vm_compute; reflexivity. Qed.

(** C65: the committed bytes of bold.png, regular.png and small.png are images with the
    black pixels that the other properties about the sheets speak of *)
Theorem C65_latin_sheets : forall gs file, latin_png gs = Some file ->
  exists p, png_decode file = Ret p /\ ph_width (p_header p) = sheet_width gs /\
    img_max_y (png_image p) = Z.of_nat (length (sheet_rows gs)) /\
    forall x y, (0 <= x < Z.of_N (sheet_width gs))%Z -> (0 <= y < Z.of_nat (length (sheet_rows gs)))%Z ->
      (img_red (png_image p) x y = 0 <-> black (sheet_rows gs) (Z.to_nat x) (Z.to_nat y) = true).
Proof. exact latin_png_decodes. Qed.
Print Assumptions C65_latin_sheets.

(** C65: what a run writes depends on the black pixels of the sheets only *)
Theorem C65_only_black_matters : forall printable f legal a b csl al,
  img_max_y a = img_max_y b -> (forall x y, img_red a x y = 0 <-> img_red b x y = 0) ->
  generate_text printable f legal a csl al = generate_text printable f legal b csl al.
Proof.
  intros printable f legal a b csl al M H. apply generate_text_ink. split; [exact M|]. intros x y.
  destruct (N.eqb_spec (img_red a x y) 0) as [E|E]; destruct (N.eqb_spec (img_red b x y) 0) as [E'|E']; try reflexivity.
  - contradiction E'. apply H, E.
  - contradiction E. apply H, E'.
Qed.
Print Assumptions C65_only_black_matters.

(** C65: a run on files that contain the committed ones, the Latin sheets byte for byte
    and the other two as any PNG files with their black pixels, writes the five font files
    as C58 says *)
Theorem C65_write_from_bytes : forall printable fl arg0, printable 10 = false ->
  (forall name text, committed_files name = Some text -> fl name = Some text) ->
  (forall gs b, latin_png gs = Some b -> fl (png_of gs) = Some b) ->
  (forall gs, latin_png gs = None -> exists b p, fl (png_of gs) = Some b /\ png_decode b = Ret p /\
     shows_rows (png_image p) (sheet_width gs) (sheet_rows gs)) ->
  let r := go_main printable fl (images_in fl) [arg0; chars "--write"] in
  r_ok r = true /\
  map fst (r_writes r) = [chars "../src/fonts/emoji.rs"; chars "../src/fonts/hanzi.rs"; chars "../src/fonts/bold.rs";
                          chars "../src/fonts/regular.rs"; chars "../src/fonts/small.rs"] /\
  Forall2 (fun gs w => read_rust (chars (fs_name (font_spec gs))) (snd w) = Some (constants_of (blitstr_fonts gs)))
          [Emoji; Hanzi; Bold; Regular; Small] (r_writes r) /\
  ((forall cl c, In cl (latin_index ++ map snd latin_aliases) -> cl <> [0xAD] -> cl <> [0xA0] -> In c cl -> printable c = true) ->
   exists emoji hanzi, r_writes r =
    [(chars "../src/fonts/emoji.rs", emoji); (chars "../src/fonts/hanzi.rs", hanzi);
     (chars "../src/fonts/bold.rs", text_of TextBold.bold_rs);
     (chars "../src/fonts/regular.rs", text_of TextRegular.regular_rs);
     (chars "../src/fonts/small.rs", text_of TextSmall.small_rs)]).
Proof.
  intros printable fl arg0 Hp Hf Hl Ho. destruct (run_bytes printable fl arg0 Hp Hf Hl Ho) as (H1 & H2 & H3 & H4). cbv zeta in *.
  split; [exact H1|]. split; [exact H2|]. split.
  - change [Emoji; Hanzi; Bold; Regular; Small] with config_order.
    eapply Forall2_weaken; [|exact H4]. intros gs w [R _]. exact R.
  - intros Hs. change (chars "--write") with confirm in *.
    set (ws := r_writes _) in *. clearbody ws. unfold config_order in *.
    do 5 (let w := fresh "w" in let o := fresh "o" in destruct ws as [|[o w] ws]; [discriminate H2|]). destruct ws; [|discriminate H2].
    cbn [map fst] in H2. injection H2 as -> -> -> -> ->.
    repeat match goal with H : Forall2 _ (_ :: _) (_ :: _) |- _ => inversion_clear H end. cbn [snd] in *.
    exists w, w0. rewrite (proj2 H0 Hs _ eq_refl), (proj2 H4 Hs _ eq_refl), (proj2 H5 Hs _ eq_refl). reflexivity.
Qed.
Print Assumptions C65_write_from_bytes.

(** There are such files for the other two sheets *)
Example C65_case_sheets : forall gs, exists b p, png_decode b = Ret p /\ shows_rows (png_image p) (sheet_width gs) (sheet_rows gs).
Proof.
  intros gs. destruct (sheet_file_exists (sheet_width gs) (sheet_rows gs)) as (b & p & E & _ & S).
  - destruct gs; split; vm_compute; discriminate.
  - assert (H : (1 <=? N.of_nat (length (sheet_rows gs))) && (N.of_nat (length (sheet_rows gs)) <=? 0x7FFFFFFF) = true)
      by (destruct gs; vm_cast_no_check (eq_refl true)).
    apply andb_prop in H. destruct H as [A B]. apply N.leb_le in A, B. split; assumption.
  - exists b, p. split; assumption.
Qed.

(** C65: doc/goose_poem.png, byte for byte, is a picture of the page that the demo shows:
    the page's colours are those of the screenshot for ink, screen and surroundings *)
Theorem C65_goose_poem_bytes : forall m fb img, cfg_ok m -> is_frbuf fb -> is_image img ->
  exists fb' p, wasm_init m blitstr_fonts fb = Ret fb' /\ png_decode (file_bytes poem_file) = Ret p /\
  ph_width (p_header p) = 346 /\ ph_height (p_header p) = 146 /\
  forall x y, (x < 346)%nat -> (y < 146)%nat ->
    png_colour p x y = (shot_colour (page_pixel (repaint fb' img) 5 4 x y), 255).
Proof.
  intros m fb img Hm Hfb Hi. destruct (C60_goose_poem_shot m fb img Hm Hfb Hi) as (fb' & E & S).
  destruct (shot_file_sound _ _ _ poem_file_ok) as (p & Ep & Ew & Eh & H).
  exists fb', p. split; [exact E|]. split; [exact Ep|]. split; [exact Ew|]. split; [exact Eh|].
  intros x y Lx Ly. apply H. apply S; assumption.
Qed.
Print Assumptions C65_goose_poem_bytes.

(** C65: and doc/short_greeting.png one of the page with the README's first example *)
Theorem C65_short_greeting_bytes : forall m fb img, cfg_ok m -> is_frbuf fb -> is_image img ->
  exists fb' p, short_greeting m blitstr_fonts fb = Ret fb' /\ png_decode (file_bytes greeting_file) = Ret p /\
  ph_width (p_header p) = 351 /\ ph_height (p_header p) = 102 /\
  forall x y, (x < 351)%nat -> (y < 102)%nat ->
    png_colour p x y = (shot_colour (page_pixel (repaint fb' img) 7 8 x y), 255).
Proof.
  intros m fb img Hm Hfb Hi. destruct (C60_short_greeting_shot m fb img Hm Hfb Hi) as (fb' & E & S).
  destruct (shot_file_sound _ _ _ greeting_file_ok) as (p & Ep & Ew & Eh & H).
  exists fb', p. split; [exact E|]. split; [exact Ep|]. split; [exact Ew|]. split; [exact Eh|].
  intros x y Lx Ly. apply H. apply S; assumption.
Qed.
Print Assumptions C65_short_greeting_bytes.
Example C65_case_shots : shot_colour "#" = (51, 51, 51) /\ shot_colour "." = (167, 186, 202) /\ shot_colour "+" = (100, 129, 120).
Proof. repeat split. Qed.
