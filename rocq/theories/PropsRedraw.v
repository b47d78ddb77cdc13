(** * C79: clearing a region and painting in it shows the text and nothing else *)
From Verif Require Import PrimFacts Geom Str FontDefs Blit Spec SpecPaint SpecRedraw Fonts FontsOk ClearProofs RedrawProofs.

(** C79: a region cleared and painted shows the text, dark on light, whatever was there; beside it nothing changes,
    except that the next 32 columns are cleared if its right edge is a multiple of 32 *)
Theorem C79_redraw : forall m F clip, cfg_ok m -> fontset_ok F -> on_screen clip -> 36 <= clip_width clip ->
  forall c st s fb, is_frbuf fb -> ~ (ovf m = true /\ px (cmax clip) mod 32 = 0) -> cursor_fits m F c s ->
  exists fb', redraw m F clip c st s fb = Ret (fb', snd (layout (N.to_nat (str_len s)) F clip st c s)) /\ is_frbuf fb' /\
    forall x y, x < STORED_WIDTH -> y < LINES -> pixel fb' x y =
      if in_clip clip x y then negb (inked F clip (fst (layout (N.to_nat (str_len s)) F clip st c s)) x y)
      else pixel fb x y || beside clip x y.
Proof. exact redraw_shows. Qed.
Print Assumptions C79_redraw.

(** C79: drawing another text over it leaves no trace of the first *)
Theorem C79_no_trace : forall m F clip, cfg_ok m -> fontset_ok F -> on_screen clip -> 36 <= clip_width clip ->
  forall c1 st1 s1 c2 st2 s2 fb fb1 c', is_frbuf fb -> cursor_fits m F c1 s1 -> cursor_fits m F c2 s2 ->
  redraw m F clip c1 st1 s1 fb = Ret (fb1, c') -> redraw m F clip c2 st2 s2 fb1 = redraw m F clip c2 st2 s2 fb.
Proof. exact redraw_again. Qed.
Print Assumptions C79_no_trace.

(** C79: without the condition on the right edge, no build leaves the rest alone: those that check panic, the others
    clear beside the region *)
Theorem C79_redraw_refuted :
  let clip := cliprect_new 0 0 64 20 in let c := Cursor (Pt 0 0) 0 in
  redraw (Cfg true 32) blitstr_fonts clip c StSmall [65] blank = Panic /\
  match redraw (Cfg false 32) blitstr_fonts clip c StSmall [65] blank with
  | Ret (fb', _) => in_clip clip 70 10 = false /\ pixel blank 70 10 = false /\ pixel fb' 70 10 = true
  | Panic => False
  end.
Proof. vm_compute. repeat split. Qed.
Print Assumptions C79_redraw_refuted.

(** A in a region that held a B, and the same in a blank frame buffer *)
Example C79_case :
  let clip := cliprect_new 10 20 70 60 in let c := Cursor (Pt 10 22) 0 in
  on_screen clip /\ 36 <= clip_width clip /\ px (cmax clip) mod 32 <> 0 /\
  match redraw (Cfg true 32) blitstr_fonts clip c StRegular [66] blank with
  | Ret (fb1, c1) =>
      c1 <> c /\ redraw (Cfg true 32) blitstr_fonts clip c StRegular [65] fb1 = redraw (Cfg true 32) blitstr_fonts clip c StRegular [65] blank /\
      match redraw (Cfg true 32) blitstr_fonts clip c StRegular [65] fb1 with
      | Ret (fb2, _) => fb2 <> fb1 /\ map (fun x => pixel fb2 x 40) [9; 10; 11; 12; 69; 70] = [false; true; false; false; true; false]
      | Panic => False
      end
  | Panic => False
  end.
Proof. vm_compute. repeat split; discriminate. Qed.
