(** Specification vocabulary for the polar pad layouts. *)
From Coq Require Import ZArith List Bool Reals.
From Verif Require Import Base RBase DiskBase FpsModel FpaModel VdModel.
From Verif Require RectSpec.
Import ListNotations.
Open Scope R_scope.

(** The index formed from row and pad number, as for the rectangular layout. *)
Notation code := RectSpec.code.
Notation upto := RectSpec.upto.

(** Two angles denote the same direction. *)
Definition same_angle (a b : R) : Prop := exists k : Z, a = b + 2 * PI * IZR k.

(** Euclidean distance of the points with polar coordinates (r,a) and (r',a'). *)
Definition pdist (r a r' a' : R) : R := RectSpec.dist2 (r * cos a) (r * sin a) (r' * cos a') (r' * sin a').

(** [d] is the distance of the point (r,phi) to the keystone r0 <= r' <= r1, p0 <= p' <= p1. *)
Definition is_sector_dist (r phi r0 r1 p0 p1 d : R) : Prop :=
  (exists r' p', r0 <= r' <= r1 /\ p0 <= p' <= p1 /\ pdist r phi r' p' = d) /\
  (forall r' p', r0 <= r' <= r1 -> p0 <= p' <= p1 -> d <= pdist r phi r' p').

(** The value a call gives the caller, without the object it leaves behind. *)
Definition answer {S A} (r : sres S A) : result A :=
  match r with SOk _ a => Ok a | SThrow _ e => Throw e | SUB => UB end.

(** ** Fixed pad size *)
(** Constructor arguments. *)
Record fps_args := mkFpsArgs {
  fa_rMin : R; fa_rMax : R; fa_padHeight : R; fa_padWidth : R; fa_nRow : Z; fa_padGap : R; fa_phiMax : R }.

(** getPadsInRow calls are the only ones that touch the object. *)
Fixpoint fps_asked (l : fps) (h : list Z) : option fps :=
  match h with
  | [] => Some l
  | r :: t => match fps_getPadsInRow l r with
              | SOk l' _ => fps_asked l' t | SThrow l' _ => fps_asked l' t | SUB => None
              end
  end.
(** [l] is what the user holds after constructing from [a] and asking for the pads of the rows [h]. *)
Definition fps_made (a : fps_args) (h : list Z) (l : fps) : Prop :=
  exists l0, new_fps (fa_rMin a) (fa_rMax a) (fa_padHeight a) (fa_padWidth a) (fa_nRow a) (fa_padGap a)
                     (fa_phiMax a) = Ok l0 /\ fps_asked l0 h = Some l.

(** A usable set of arguments: a ring of positive width, pads that take some room, a positive opening
    angle of at most a full turn. *)
Definition fps_sane (a : fps_args) : Prop :=
  0 <= fa_rMin a < fa_rMax a /\ 0 < fa_padWidth a + fa_padGap a /\ 0 < fa_phiMax a <= 2 * PI.

(** The pads of row [i] of the finished layout, as a user counts them. *)
Definition fps_row_size (l : fps) (i n : Z) : Prop :=
  exists l' v, fps_getPadsInRow l i = SOk l' v /\ Z.of_nat (List.length v) = n.

(** Pad [j] of row [i] exists, and both numbers fit into an index. *)
Definition fps_valid (l : fps) (i j : Z) : Prop :=
  exists np, fps_row_size l i np /\ (0 <= j < np)%Z /\ (np <= 65536)%Z /\ (i < 65536)%Z.
(** Every row has pads, and all fit into an index. *)
Definition fps_all_rows (l : fps) : Prop :=
  (0 < fps_getNRows l <= 65536)%Z /\
  forall i, (0 <= i < fps_getNRows l)%Z -> exists np, fps_row_size l i np /\ (0 < np <= 65536)%Z.

(** ** Fixed pad angle *)
Record fpa_args := mkFpaArgs {
  pa_rMin : R; pa_rMax : R; pa_nRow : Z; pa_phiMin : R; pa_phiMax : R; pa_nPads : Z }.
Fixpoint fpa_asked (l : fpa) (h : list Z) : option fpa :=
  match h with
  | [] => Some l
  | r :: t => match fpa_getPadsInRow l r with
              | SOk l' _ => fpa_asked l' t | SThrow l' _ => fpa_asked l' t | SUB => None
              end
  end.
Definition fpa_made (a : fpa_args) (h : list Z) (l : fpa) : Prop :=
  exists l0, new_fpa (pa_rMin a) (pa_rMax a) (pa_nRow a) (pa_phiMin a) (pa_phiMax a) (pa_nPads a) = Ok l0 /\
             fpa_asked l0 h = Some l.
Definition fpa_sane (a : fpa_args) : Prop :=
  0 <= pa_rMin a < pa_rMax a /\ (0 < pa_nRow a <= 65536)%Z /\
  pa_phiMin a < pa_phiMax a <= pa_phiMin a + 2 * PI /\ (0 < pa_nPads a <= 65536)%Z.
(** Edges of row [i] and pad [j]. *)
Definition fpa_r (a : fpa_args) (i : Z) : R := pa_rMin a + IZR i * ((pa_rMax a - pa_rMin a) / IZR (pa_nRow a)).
Definition fpa_phi (a : fpa_args) (j : Z) : R :=
  pa_phiMin a + IZR j * ((pa_phiMax a - pa_phiMin a) / IZR (pa_nPads a)).

(** Pad [j] of row [i] exists. *)
Definition fpa_pad (a : fpa_args) (i j : Z) : Prop := (0 <= i < pa_nRow a)%Z /\ (0 <= j < pa_nPads a)%Z.

(** ** Versatile *)
Record vd_args := mkVdArgs {
  va_nPads : Z; va_pitch : R; va_height : R; va_offset : R; va_padWidth : R; va_padHeight : R; va_repeat : Z }.
Inductive vd_call :=
| VAdd (a : vd_args)
| VPads (row : Z).
Definition vd_do (l : vd) (c : vd_call) : option vd :=
  match c with
  | VAdd a => match vd_addRow l (va_nPads a) (va_pitch a) (va_height a) (va_offset a) (va_padWidth a)
                              (va_padHeight a) (va_repeat a) with
              | SOk l' _ => Some l' | SThrow l' _ => Some l' | SUB => None
              end
  | VPads r => match vd_getPadsInRow l r with SOk l' _ => Some l' | SThrow l' _ => Some l' | SUB => None end
  end.
Fixpoint vd_run (l : vd) (h : list vd_call) : option vd :=
  match h with [] => Some l | c :: t => match vd_do l c with Some l' => vd_run l' t | None => None end end.
Definition vd_made (rMin : R) (h : list vd_call) (l : vd) : Prop := vd_run (new_vd rMin) h = Some l.

(** What addRow demands of its arguments, [top] being the outer radius of the layout so far: counts
    are positive, lengths are not negative, the pads are not wider than the pitch, and all pads fit
    on the circle through the middle of the (first) new row. *)
Definition vd_good (top : R) (a : vd_args) : Prop :=
  (0 < va_nPads a)%Z /\ 0 <= va_pitch a /\ 0 <= va_padWidth a <= va_pitch a /\ 0 < va_height a /\
  (0 < va_repeat a)%Z /\ va_pitch a * IZR (va_nPads a) <= 2 * PI * (top + va_height a / 2).
(** What a history of calls amounts to: the rows from the inside out, each with its inner radius and
    the arguments it was made from, and the outer radius of the layout. *)
Inductive vd_story (rMin : R) : list vd_call -> list (R * vd_args) -> R -> Prop :=
| vs_new : vd_story rMin [] [] rMin
| vs_add h rows top a : vd_story rMin h rows top -> vd_good top a ->
    vd_story rMin (h ++ [VAdd a])
      (rows ++ map (fun k => (top + IZR k * va_height a, a)) (upto (Z.to_nat (va_repeat a))))
      (top + IZR (va_repeat a) * va_height a)
| vs_refused h rows top a : vd_story rMin h rows top -> ~ vd_good top a ->
    vd_story rMin (h ++ [VAdd a]) rows top
| vs_asked h rows top r : vd_story rMin h rows top -> vd_story rMin (h ++ [VPads r]) rows top.
(** Rows that lie on top of each other from radius [lo] to radius [hi]. *)
Fixpoint stacked (lo : R) (rows : list (R * vd_args)) (hi : R) : Prop :=
  match rows with
  | [] => lo = hi
  | x :: t => fst x = lo /\ stacked (lo + va_height (snd x)) t hi
  end.
(** Middle radius, pad pitch (angle) and start angle of a row.  A start angle beyond a full turn is
    moved by one turn, always upwards. *)
Definition vd_rc (x : R * vd_args) : R := fst x + va_height (snd x) / 2.
Definition vd_pitch (x : R * vd_args) : R := va_pitch (snd x) / vd_rc x.
Definition vd_off (x : R * vd_args) : R :=
  let o := va_offset (snd x) / vd_rc x in
  if Rltb o (- 2 * PI) then o + 2 * PI else if Rleb (2 * PI) o then o + 2 * PI else o.
(** The angle at which pad [j] of the row begins. *)
Definition vd_phi (x : R * vd_args) (j : Z) : R := vd_off x + IZR j * vd_pitch x.
(** Row [k] is [x] and has a pad [j]; both numbers fit into an index. *)
Definition vd_pad (rows : list (R * vd_args)) (k : Z) (x : R * vd_args) (j : Z) : Prop :=
  nthZ rows k = Some x /\ (0 <= j < va_nPads (snd x))%Z /\ (va_nPads (snd x) <= 65536)%Z /\ (k < 65536)%Z.
(** A row that lies in one turn, starting at an angle that is not negative, and whose pads are not
    absurdly narrow. *)
Definition vd_in_turn (x : R * vd_args) : Prop :=
  0 < vd_pitch x /\ 0 <= vd_off x <= 2147483648 * vd_pitch x /\ vd_phi x (va_nPads (snd x)) <= 2 * PI /\
  (va_nPads (snd x) <= 65536)%Z.
(** The number of pads of all rows. *)
Definition pads_of (rows : list (R * vd_args)) : Z := fold_right (fun x s => va_nPads (snd x) + s)%Z 0%Z rows.
(** Every addRow call of the history was accepted. *)
Inductive all_accepted (rMin : R) : list vd_call -> Prop :=
| aa_new : all_accepted rMin []
| aa_add h rows top a : all_accepted rMin h -> vd_story rMin h rows top -> vd_good top a -> all_accepted rMin (h ++ [VAdd a])
| aa_ask h r : all_accepted rMin h -> all_accepted rMin (h ++ [VPads r]).
