(** Model of the XML handlers of the pad layouts: src/gearxml/RectangularPadRowLayoutXML.cc,
    FixedPadSizeDiskLayoutXML.cc, FixedPadAngleDiskLayoutXML.cc and VersatileDiskRowLayoutXML.cc.
    The dynamic_cast to the handler's own type succeeds.  An exception in fromXML leaks the layout
    under construction. *)
From Coq Require Import ZArith List String Ascii Bool Reals.
From Verif Require Import Base RBase XmlModel NumModel HxModel DiskBase FpsModel FpaModel VdModel.
From Verif Require Import RectModel.
Import ListNotations.
Local Open Scope string_scope.

(** atof( getOptionalXMLAttribute( node, name, default ).c_str() ) *)
Definition get_opt_double (n : xnode) (name default : string) : R := atof (getOptionalXMLAttribute n name default).
(** atoi( getOptionalXMLAttribute( node, name, default ).c_str() ) *)
Definition get_opt_int (n : xnode) (name default : string) : result Z := atoi (getOptionalXMLAttribute n name default).
(** the outcome of a call whose exception is not caught *)
Definition outcome {S A} (r : sres S A) : result S :=
  match r with SOk s _ => Ok s | SThrow _ e => Throw e | SUB => UB end.

(** ** RectangularPadRowLayoutXML.cc *)
(** lines 51-70: one <row> element; [nRow] is the int made of an entry of equalRowNumbers() *)
Definition rect_row_elem (nRow : Z) (r : Row) : xnode :=
  XElem "row" (attrs_of
    ((if (1 <? nRow)%Z then [("repeat", print_int nRow)] else []) ++
     [("nPad", print_int (NPad r)); ("padWidth", print_double (PadWidth r)); ("padHeight", print_double (PadHeight r));
      ("rowHeight", print_double (Height r)); ("leftOffset", print_double (LeftOffset r));
      ("rightOffset", print_double (RightOffset r))])) [].

(** lines 49-73: the loop; [theRow] is the row number reached, [nums] what is left of the row numbers *)
Fixpoint rect_row_elems (rows : list Row) (theRow : Z) (nums : list Z) : result (list xnode) :=
  match nums with
  | [] => Ok []
  | u :: rest =>
      match nthZ rows theRow with
      | None => UB
      | Some r => rmap (cons (rect_row_elem (int32 u) r)) (rect_row_elems rows (theRow + int32 u) rest)
      end
  end.

(** lines 12-76 toXML *)
Definition rect_toXML (l : rect) : result xnode :=
  let cnt := getRepeatRowCount l in                                               (* 32 *)
  let size := Z.of_nat (List.length (_nRows l)) in                                (* 41 *)
  let rowNum := if (1 <? cnt)%Z then Z.quot size cnt else size in                 (* 43-44 *)
  rbind (rect_row_elems (_rows l) 0 (firstn (Z.to_nat rowNum) (_nRows l))) (fun rs =>
  Ok (XElem "PadRowLayout2D" (attrs_of
        ([("type", "RectangularPadRowLayout"); ("xMin", print_double (ext0 l)); ("xMax", print_double (ext1 l));
          ("yMin", print_double (ext2 l))] ++
         (if (1 <? cnt)%Z then [("RepeatRows", print_double (IZR cnt))] else []))) rs)).

(** lines 91-105: one <row> element is read *)
Definition rect_read_row (l : rect) (n : xnode) : result rect :=
  rbind (get_opt_int n "repeat" "1") (fun nRow =>
  rbind (get_int n "nPad") (fun nPad =>
  rbind (get_double n "padWidth") (fun padWidth =>
  rbind (get_double n "padHeight") (fun padHeight =>
  outcome (addRow l nRow nPad padWidth padHeight (get_opt_double n "rowHeight" "0.0")
                  (get_opt_double n "leftOffset" "0.0") (get_opt_double n "rightOffset" "0.0")))))).

(** lines 79-110 fromXML *)
Definition rect_fromXML (n : xnode) : result rect :=
  rbind (get_double n "xMin") (fun xMin =>
  rbind (get_double n "xMax") (fun xMax =>
  rbind (get_double n "yMin") (fun yMin =>
  rbind (get_opt_int n "repeatRows" "1") (fun cnt =>
  rbind (rfold rect_read_row (IterateChildren "row" n) (new_rect xMin xMax yMin)) (fun l =>
  outcome (repeatRows l (uint32 cnt))))))).

(** ** FixedPadSizeDiskLayoutXML.cc *)
(** lines 20-51 toXML *)
Definition fps_toXML (l : fps) : result xnode :=
  Ok (XElem "PadRowLayout2D" (attrs_of
    [("type", "FixedPadSizeDiskLayout"); ("rMin", print_double (f_rMin l)); ("rMax", print_double (f_rMax l));
     ("padHeight", print_double (fps_getPadHeight l 1)); ("padWidth", print_double (fps_getFixedPadWidth l));
     ("maxRow", print_int (fps_getNRows l)); ("padGap", print_double (fps_getPadGap l));
     ("phiMax", print_double (f_phiMax l))]) []).

(** lines 54-75 fromXML *)
Definition fps_fromXML (n : xnode) : result fps :=
  rbind (get_double n "rMin") (fun rMin =>
  rbind (get_double n "rMax") (fun rMax =>
  rbind (get_double n "padHeight") (fun padHeight =>
  rbind (get_double n "padWidth") (fun padWidth =>
  rbind (get_int n "maxRow") (fun maxRow =>
  rbind (get_double n "padGap") (fun padGap =>
  let phiMax := match get_double n "phiMax" with Ok v => v | _ => (2 * PI)%R end in  (* 64-71 *)
  new_fps rMin rMax padHeight padWidth maxRow padGap phiMax)))))).

(** ** FixedPadAngleDiskLayoutXML.cc *)
(** lines 17-45 toXML *)
Definition fpa_toXML (l : fpa) : result xnode :=
  Ok (XElem "PadRowLayout2D" (attrs_of
    [("type", "FixedPadAngleDiskLayout"); ("rMin", print_double (p_rMin l)); ("rMax", print_double (p_rMax l));
     ("nRow", print_int (fpa_getNRows l)); ("phiMin", print_double (p_phiMin l)); ("phiMax", print_double (p_phiMax l));
     ("nPadInRow", print_int (fpa_getNPadsInRow l))]) []).

(** lines 48-60 fromXML *)
Definition fpa_fromXML (n : xnode) : result fpa :=
  rbind (get_double n "rMin") (fun rMin =>
  rbind (get_double n "rMax") (fun rMax =>
  rbind (get_int n "nRow") (fun nRow =>
  rbind (get_double n "phiMin") (fun phiMin =>
  rbind (get_double n "phiMax") (fun phiMax =>
  rbind (get_int n "nPadsInRow") (fun nPadsInRow =>
  new_fpa rMin rMax nRow phiMin phiMax nPadsInRow)))))).

(** ** VersatileDiskRowLayoutXML.cc *)
(** lines 36-48: one <row> element.  The accessors return the angles (VersatileDiskRowLayout.h
    59-67), "padPitch" is set twice. *)
Definition vd_row_elem (r : vrow) : xnode :=
  XElem "row" (attrs_of
    [("nPad", print_int (v_nPads r)); ("padPitch", print_double (v_padPitch r)); ("padPitch", print_double (v_padPitch r));
     ("rowHeight", print_double (v_rowHeight r)); ("padWidth", print_double (v_padWidth r));
     ("padHeight", print_double (v_padHeight r)); ("offset", print_double (v_offset r))]) [].

(** lines 17-52 toXML *)
Definition vd_toXML (l : vd) : result xnode :=
  Ok (XElem "PadRowLayout2D" (attrs_of [("type", "VersatileDiskRowLayout"); ("rMin", print_double (v_e0 l))])
        (map vd_row_elem (v_rows l))).

(** lines 62-73: one <row> element is read; "padWidtht" in 66 *)
Definition vd_read_row (l : vd) (n : xnode) : result vd :=
  rbind (get_int n "nPad") (fun nPad =>
  rbind (get_double n "padPitch") (fun padPitch =>
  rbind (get_double n "rowHeight") (fun rowHeight =>
  rbind (get_opt_int n "repeat" "1") (fun rep =>
  outcome (vd_addRow l nPad padPitch rowHeight (get_opt_double n "offset" "0.0")
                     (get_opt_double n "padWidtht" "0.0") (get_opt_double n "padHeight" "0.0") rep))))).

(** lines 55-77 fromXML *)
Definition vd_fromXML (n : xnode) : result vd :=
  rbind (get_double n "rMin") (fun rMin =>
  rfold vd_read_row (IterateChildren "row" n) (new_vd rMin)).
