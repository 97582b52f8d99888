(** Specification vocabulary for RectangularPadRowLayout: what a user asked for, row by row. *)
From Coq Require Import ZArith List String Bool Reals.
From Verif Require Import Base RBase RectModel.
Import ListNotations.
Open Scope R_scope.

(** One addRow call as the user writes it. *)
Record add_args := mkAdd {
  a_nRow : Z; a_nPad : Z; a_padWidth : R; a_padHeight : R;
  a_rowHeight : R; a_left : R; a_right : R }.

(** The calls a user makes. *)
Inductive rect_call :=
| CAdd (a : add_args)
| CRepeat (count : Z)
| CPads (row : Z).

(** Arguments that satisfy the documented contract (the asserts); repeat counts that are at least
    one and fit into an int. *)
Definition legal_call (c : rect_call) : Prop :=
  match c with
  | CAdd a => (0 < a_nRow a)%Z /\ (0 < a_nPad a)%Z /\ 0 <= a_padWidth a /\ 0 <= a_padHeight a /\
              0 <= a_rowHeight a /\ 0 <= a_left a /\ 0 <= a_right a
  | CRepeat n => (1 <= n < 2147483648)%Z
  | CPads _ => True
  end.

(** One row as the user expects it. *)
Record srow := mkS { s_n : Z; s_padW : R; s_padH : R; s_h : R; s_left : R; s_right : R }.

(** A row height of zero means "as high as the pads". *)
Definition asked_height (a : add_args) : R :=
  if Req_EM_T (a_rowHeight a) 0 then a_padHeight a else a_rowHeight a.
Definition srow_of (a : add_args) : srow :=
  mkS (a_nPad a) (a_padWidth a) (a_padHeight a) (asked_height a) (a_left a) (a_right a).

(** Pads fit next to each other; pads are not higher than the row. *)
Definition width_fits (x0 x1 : R) (s : srow) : Prop :=
  IZR (s_n s) * s_padW s <= (x1 - s_right s) - (x0 + s_left s).
Definition height_fits (s : srow) : Prop := s_padH s <= s_h s.

Definition width_fits_dec x0 x1 s : {width_fits x0 x1 s} + {~ width_fits x0 x1 s} := Rle_dec _ _.
Definition height_fits_dec s : {height_fits s} + {~ height_fits s} := Rle_dec _ _.

(** Expected rows and whether the pattern has been repeated, after a list of calls. *)
Definition expect1 (x0 x1 : R) (st : list srow * bool) (c : rect_call) : list srow * bool :=
  match c with
  | CAdd a =>
      if width_fits_dec x0 x1 (srow_of a) then
        if height_fits_dec (srow_of a)
        then (fst st ++ repeat (srow_of a) (Z.to_nat (a_nRow a)), snd st)
        else st
      else st
  | CRepeat n => if snd st then st else (List.concat (repeat (fst st) (Z.to_nat n)), true)
  | CPads _ => st
  end.
Definition expected (x0 x1 : R) (h : list rect_call) : list srow * bool :=
  fold_left (expect1 x0 x1) h ([], false).
Definition expected_rows x0 x1 h := fst (expected x0 x1 h).

(** Executing the calls; an exception is caught by the caller and the object used further. *)
Definition do_call (l : rect) (c : rect_call) : option rect :=
  match c with
  | CAdd a =>
      match addRow l (a_nRow a) (a_nPad a) (a_padWidth a) (a_padHeight a) (a_rowHeight a) (a_left a)
                   (a_right a) with
      | SOk l' _ => Some l' | SThrow l' _ => Some l' | SUB => None
      end
  | CRepeat n =>
      match repeatRows l n with SOk l' _ => Some l' | SThrow l' _ => Some l' | SUB => None end
  | CPads r =>
      match getPadsInRow l r with SOk l' _ => Some l' | SThrow l' _ => Some l' | SUB => None end
  end.
Fixpoint do_calls (l : rect) (h : list rect_call) : option rect :=
  match h with
  | [] => Some l
  | c :: t => match do_call l c with Some l' => do_calls l' t | None => None end
  end.

(** [built x0 x1 y0 h l]: [l] is what the user holds after constructing and calling [h]. *)
Definition built (x0 x1 y0 : R) (h : list rect_call) (l : rect) : Prop :=
  Forall legal_call h /\ do_calls (new_rect x0 x1 y0) h = Some l.

(** y of the lower edge of row [i] when rows are stacked from [y0] *)
Fixpoint heights (E : list srow) : R :=
  match E with [] => 0 | s :: t => s_h s + heights t end.
Definition bottom (y0 : R) (E : list srow) (i : nat) : R := y0 + heights (firstn i E).

(** width available for one pad *)
Definition pitch (x0 x1 : R) (s : srow) : R := ((x1 - s_right s) - (x0 + s_left s)) / IZR (s_n s).
(** left edge of the cell of pad [j] *)
Definition cell_left (x0 x1 : R) (s : srow) (j : Z) : R := x0 + s_left s + IZR j * pitch x0 x1 s.

(** The index formed from row and pad number (both below 65536), as a 32-bit int. *)
Definition code (row pad : Z) : Z :=
  let u := (row * 65536 + pad)%Z in if (u <? 2147483648)%Z then u else (u - 4294967296)%Z.

(** Number of pads of all rows. *)
Fixpoint total_pads (E : list srow) : Z :=
  match E with [] => 0%Z | s :: t => (s_n s + total_pads t)%Z end.

(** The layout is small enough for its indices: at most 65536 rows and pads per row. *)
Definition indexable (E : list srow) : Prop :=
  (Z.of_nat (List.length E) <= 65536)%Z /\ Forall (fun s => (s_n s <= 65536)%Z) E.

(** Pads counted by calls that were refused because the row is lower than the pads. *)
Definition refused_for_height (x0 x1 : R) (c : rect_call) : Z :=
  match c with
  | CAdd a =>
      if width_fits_dec x0 x1 (srow_of a) then
        if height_fits_dec (srow_of a) then 0%Z else (a_nRow a * a_nPad a)%Z
      else 0%Z
  | _ => 0%Z
  end.
Fixpoint refused_pads (x0 x1 : R) (h : list rect_call) : Z :=
  match h with [] => 0%Z | c :: t => (refused_for_height x0 x1 c + refused_pads x0 x1 t)%Z end.

(** Euclidean distance of two points, and distance of a point to the closed box. *)
Definition dist2 (ax ay bx by_ : R) : R := sqrt ((ax - bx) * (ax - bx) + (ay - by_) * (ay - by_)).
Definition is_box_dist (x y xmin ymin xmax ymax d : R) : Prop :=
  (exists px py, xmin <= px <= xmax /\ ymin <= py <= ymax /\ dist2 x y px py = d) /\
  (forall px py, xmin <= px <= xmax -> ymin <= py <= ymax -> d <= dist2 x y px py).

(** The point of the interval nearest to [v]. *)
Definition clampR (lo hi v : R) : R := Rmax lo (Rmin hi v).

(** [pad_at x0 x1 y0 E x y i s j]: pad [j] of row [i] (which is [s]) is the right answer for the
    point (x,y) of the plane: the row contains y; if x is inside the row's pad range the cell of
    the pad contains x, left or right of it the pad is the first or last one. *)
Definition pad_at (x0 x1 y0 : R) (E : list srow) (x y : R) (i : nat) (s : srow) (j : Z) : Prop :=
  nth_error E i = Some s /\ (0 <= j < s_n s)%Z /\
  bottom y0 E i <= y <= bottom y0 E i + s_h s /\
  (x < x0 + s_left s -> j = 0%Z) /\ (x1 - s_right s < x -> j = (s_n s - 1)%Z) /\
  (x0 + s_left s <= x <= x1 - s_right s ->
     cell_left x0 x1 s j <= x <= cell_left x0 x1 s j + pitch x0 x1 s).

(** Every pad fills the height of its row. *)
Definition full_height (E : list srow) : Prop := Forall (fun s => s_padH s = s_h s) E.

(** 0, 1, ..., n-1 *)
Definition upto (n : nat) : list Z := map Z.of_nat (seq 0 n).

(** repeatRows has not been called yet *)
Definition no_repeat (h : list rect_call) : Prop := forall n, ~ In (CRepeat n) h.

(** Vertical distance of [y] from the metal of the pads of row [i], which lie in the middle of it. *)
Definition metal_gap (y0 : R) (E : list srow) (i : nat) (s : srow) (y : R) : R :=
  let mid := bottom y0 E i + s_h s / 2 in
  Rabs (y - clampR (mid - s_padH s / 2) (mid + s_padH s / 2) y).
(** [pad_across x0 x1 s x j]: in a row like [s] the cell of pad [j] contains [x]; the first or last
    pad if [x] is left or right of all of them. *)
Definition pad_across (x0 x1 : R) (s : srow) (x : R) (j : Z) : Prop :=
  (0 <= j < s_n s)%Z /\ (x < x0 + s_left s -> j = 0%Z) /\ (x1 - s_right s < x -> j = (s_n s - 1)%Z) /\
  (x0 + s_left s <= x <= x1 - s_right s -> cell_left x0 x1 s j <= x <= cell_left x0 x1 s j + pitch x0 x1 s).
