(** What C80 and C81 say about the rectangular layout in double arithmetic.  [add_args], [rect_call], [srow],
    [heights], [bottom], [pad_at] are those of RectSpec.v and speak about exact sums of the numbers asked for. *)
From Coq Require Import ZArith List String Bool Reals.
From Verif Require Import Base RBase NumModel NumSpec FpModel RectModel RectSpec FpRectModel.
Import ListNotations.
Open Scope R_scope.

(** The user passes doubles. *)
Definition double_call (c : rect_call) : Prop :=
  match c with
  | CAdd a => is_double (a_padWidth a) /\ is_double (a_padHeight a) /\ is_double (a_rowHeight a) /\
              is_double (a_left a) /\ is_double (a_right a) /\ (a_nPad a < 2147483648)%Z
  | _ => True
  end.

(** The comparison of line 80 with rounded numbers: the pads fit next to each other. *)
Definition width_fits_d (x0 x1 : R) (s : srow) : Prop :=
  to_double (IZR (s_n s) * s_padW s) <= to_double (to_double (x1 - s_right s) - to_double (x0 + s_left s)).
Definition width_fits_d_dec x0 x1 s : {width_fits_d x0 x1 s} + {~ width_fits_d x0 x1 s} := Rle_dec _ _.

(** Expected rows and whether the pattern has been repeated, after a list of calls. *)
Definition expect1_d (x0 x1 : R) (st : list srow * bool) (c : rect_call) : list srow * bool :=
  match c with
  | CAdd a =>
      if width_fits_d_dec x0 x1 (srow_of a) then
        if height_fits_dec (srow_of a)
        then (fst st ++ repeat (srow_of a) (Z.to_nat (a_nRow a)), snd st)
        else st
      else st
  | CRepeat n => if snd st then st else (List.concat (repeat (fst st) (Z.to_nat n)), true)
  | CPads _ => st
  end.
Definition expected_d (x0 x1 : R) (h : list rect_call) : list srow * bool :=
  fold_left (expect1_d x0 x1) h ([], false).
Definition expected_rows_d x0 x1 h := fst (expected_d x0 x1 h).

(** Executing the calls; an exception is caught by the caller and the object used further. *)
Definition do_call_d (l : rect) (c : rect_call) : option rect :=
  match c with
  | CAdd a =>
      match daddRow l (a_nRow a) (a_nPad a) (a_padWidth a) (a_padHeight a) (a_rowHeight a) (a_left a)
                    (a_right a) with
      | SOk l' _ => Some l' | SThrow l' _ => Some l' | SUB => None
      end
  | CRepeat n =>
      match drepeatRows l n with SOk l' _ => Some l' | SThrow l' _ => Some l' | SUB => None end
  | CPads r =>
      match getPadsInRow l r with SOk l' _ => Some l' | SThrow l' _ => Some l' | SUB => None end
  end.
Fixpoint do_calls_d (l : rect) (h : list rect_call) : option rect :=
  match h with
  | [] => Some l
  | c :: t => match do_call_d l c with Some l' => do_calls_d l' t | None => None end
  end.
(** [built_d x0 x1 y0 h l]: [l] is what the user holds after constructing and calling [h], with doubles. *)
Definition built_d (x0 x1 y0 : R) (h : list rect_call) (l : rect) : Prop :=
  is_double x0 /\ is_double x1 /\ is_double y0 /\ Forall legal_call h /\ Forall double_call h /\
  do_calls_d (new_rect x0 x1 y0) h = Some l.

(** The y coordinates of the edges, each sum rounded to a double. *)
Fixpoint edge (y0 : R) (E : list srow) (i : nat) {struct i} : R :=
  match i, E with S i', s :: t => edge (to_double (y0 + s_h s)) t i' | _, _ => y0 end.
(** The upper edge of the plane. *)
Definition top_edge (y0 : R) (E : list srow) : R := edge y0 E (List.length E).

(** 2^-53: half the distance of neighbouring doubles around 1 *)
Definition ulp1 : R := / 9007199254740992.
(** not extremely small: at least 2^-500 *)
Definition not_tiny (v : R) : Prop := powerRZ 2 (-500) <= v.

(** Rows of an ordinary size: the pads have room; heights and widths are not extremely small. *)
Definition rounded_width (x0 x1 : R) (s : srow) : R := to_double (to_double (x1 - s_right s) - to_double (x0 + s_left s)).
Definition sound_row (x0 x1 : R) (s : srow) : Prop :=
  x0 + s_left s <= x1 - s_right s /\ not_tiny (rounded_width x0 x1 s) /\ not_tiny (s_h s).
(** All coordinates are at most [M]. *)
Definition within (M a b : R) : Prop := Rabs a <= M /\ Rabs b <= M.
(** What the rounding errors add up to at most: in x, and in y for [n] rows. *)
Definition tol_x (M : R) : R := 32 * M * ulp1.
Definition tol_y (n : nat) (M : R) : R := (4 * INR n + 16) * M * ulp1.

(** The centre of row [i], computed from its rounded lower edge. *)
Definition row_centre (y0 : R) (E : list srow) (i : nat) (s : srow) : R := to_double (edge y0 E i + s_h s / 2).
(** [y] falls between row [i] and the next one: each of the two computed distances from a centre exceeds half
    the height, so neither row is taken to contain [y]. *)
Definition between_rows (y0 : R) (E : list srow) (y : R) (i : nat) : Prop := exists s s',
  nth_error E i = Some s /\ nth_error E (S i) = Some s' /\
  s_h s / 2 < to_double (y - row_centre y0 E i s) /\ s_h s' / 2 < to_double (row_centre y0 E (S i) s' - y).
(** All rows have the height [H]. *)
Definition equal_heights (H : R) (E : list srow) : Prop := Forall (fun s => s_h s = H) E.
(** Sizes for which no sum is rounded: yMin and the half of the height are multiples of one power of two and all
    edges have at most 53 binary digits, e.g. whole millimetres with even heights. *)
Definition no_rounding (y0 H : R) (n : nat) : Prop := exists a b k : Z, (-1074 <= k)%Z /\
  y0 = IZR a * powerRZ 2 k /\ H = IZR (2 * b) * powerRZ 2 k /\ (Z.abs a + Z.of_nat n * Z.abs (2 * b) < 2 ^ 53)%Z.
