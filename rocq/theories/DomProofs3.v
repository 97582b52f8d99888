(** Linked nodes: each call, on the cells. *)
From Coq Require Import ZArith List String Bool Lia Permutation.
From Verif Require Import DomModel DomSpec DomProofs DomProofs2.
Import ListNotations.
Open Scope Z_scope.

(** ** writing one of the first cells *)
Lemma hw0 h L a c f : hrep h ((a, c) :: L) -> exists h', write h a f = DOk h' /\ hrep h' ((a, f c) :: L).
Proof. intros H. destruct (hrep_write h L a c f H) as [E H']. eauto. Qed.
Lemma hw1 h L x1 a c f : hrep h (x1 :: (a, c) :: L) -> exists h', write h a f = DOk h' /\ hrep h' (x1 :: (a, f c) :: L).
Proof.
  intros H. destruct (hw0 h (x1 :: L) a c f) as (h' & E & H'); [eapply hrep_perm; [|exact H]; perm|].
  exists h'. split; [exact E|]. eapply hrep_perm; [|exact H']. perm.
Qed.
Lemma hw2 h L x1 x2 a c f : hrep h (x1 :: x2 :: (a, c) :: L) -> exists h', write h a f = DOk h' /\ hrep h' (x1 :: x2 :: (a, f c) :: L).
Proof.
  intros H. destruct (hw0 h (x1 :: x2 :: L) a c f) as (h' & E & H'); [eapply hrep_perm; [|exact H]; perm|].
  exists h'. split; [exact E|]. eapply hrep_perm; [|exact H']. perm.
Qed.
Lemma hw3 h L x1 x2 x3 a c f : hrep h (x1 :: x2 :: x3 :: (a, c) :: L) -> exists h', write h a f = DOk h' /\ hrep h' (x1 :: x2 :: x3 :: (a, f c) :: L).
Proof.
  intros H. destruct (hw0 h (x1 :: x2 :: x3 :: L) a c f) as (h' & E & H'); [eapply hrep_perm; [|exact H]; perm|].
  exists h'. split; [exact E|]. eapply hrep_perm; [|exact H']. perm.
Qed.
Lemma hw4 h L x1 x2 x3 x4 a c f : hrep h (x1 :: x2 :: x3 :: x4 :: (a, c) :: L) -> exists h', write h a f = DOk h' /\ hrep h' (x1 :: x2 :: x3 :: x4 :: (a, f c) :: L).
Proof.
  intros H. destruct (hw0 h (x1 :: x2 :: x3 :: x4 :: L) a c f) as (h' & E & H'); [eapply hrep_perm; [|exact H]; perm|].
  exists h'. split; [exact E|]. eapply hrep_perm; [|exact H']. perm.
Qed.
Ltac cells_norm := unfold cell_of, set_last, set_first, set_next, set_prev, set_parent, set_data in *;
  cbn [c_parent c_first c_last c_prev c_next c_data kids dat addr] in *.
Ltac wr H := lazymatch goal with |- context [write ?h ?a ?f] =>
  let h' := fresh "h" in let E := fresh "E" in let H' := fresh "H" in
  first [destruct (hw0 h _ a _ f H) as (h' & E & H') | destruct (hw1 h _ _ a _ f H) as (h' & E & H')
        | destruct (hw2 h _ _ _ a _ f H) as (h' & E & H') | destruct (hw3 h _ _ _ _ a _ f H) as (h' & E & H')
        | destruct (hw4 h _ _ _ _ _ a _ f H) as (h' & E & H')];
  rewrite E; cbn [dbind]; clear E H; rename H' into H end.
Ltac rd H := lazymatch goal with |- context [get ?h ?a] =>
  let G := fresh "G" in
  first [pose proof (hrep_get h _ a _ H (or_introl eq_refl)) as G | pose proof (hrep_get h _ a _ H (or_intror (or_introl eq_refl))) as G
        | pose proof (hrep_get h _ a _ H (or_intror (or_intror (or_introl eq_refl)))) as G
        | pose proof (hrep_get h _ a _ H (or_intror (or_intror (or_intror (or_introl eq_refl))))) as G];
  rewrite G; cbn [dbind]; clear G end.
Lemma is_ptr_refl a : is_ptr (Some a) a = true. Proof. apply Z.eqb_refl. Qed.

(** ** a child within the list of children *)
Lemma ct_mid par prv nxt p d l x rr : ct par prv nxt (Node p d (l ++ x :: rr)) =
  (p, mkCell par (hd_of l (Some (addr x))) (last_of (Some (addr x)) rr) prv nxt d) :: cl (Some p) None l (Some (addr x)) ++
  (addr x, cell_of (Some p) (last_of None l) (hd_of rr None) x) :: cl (Some (addr x)) None (kids x) None ++ cl (Some p) (Some (addr x)) rr None.
Proof. rewrite ct_eq, cl_app. cbn [cl hd_of]. rewrite ct_eq'. unfold cell_of at 1. cbn [kids dat]. rewrite hd_of_app, last_of_app. reflexivity. Qed.
Lemma cl_last par prv l0 y nxt : cl par prv (l0 ++ [y]) nxt = cl par prv l0 (Some (addr y)) ++
  (addr y, cell_of par (last_of prv l0) nxt y) :: cl (Some (addr y)) None (kids y) None.
Proof. rewrite cl_app. cbn [cl hd_of]. rewrite ct_eq', app_nil_r. reflexivity. Qed.
Lemma cl_first par prv z r0 nxt : cl par prv (z :: r0) nxt = (addr z, cell_of par prv (hd_of r0 nxt) z) ::
  cl (Some (addr z)) None (kids z) None ++ cl par (Some (addr z)) r0 nxt.
Proof. cbn [cl]. now rewrite ct_eq'. Qed.

(** the new nodes of a copy *)
Definition fresh_in (L : list (Z * cell)) (T : list tree) : Prop := NoDup (all T) /\ forall y, In y (all T) -> ~ In y (keys L).
Lemma fresh_ct h par prv nxt t L : hrep h (ct par prv nxt t ++ L) -> fresh_in L [t].
Proof.
  intros [[N _] _]. unfold keys in N. rewrite map_app in N. fold (keys (ct par prv nxt t)) (keys L) in N. rewrite keys_ct in N.
  unfold fresh_in. assert (E : all [t] = addrs t) by (unfold all; cbn; apply app_nil_r). rewrite E. split; [now apply nodup_l in N|].
  intros y I J. apply in_split in I. destruct I as (u & v & I). rewrite I in N. rewrite <- app_assoc in N. cbn in N. apply (NoDup_remove_2 u) in N. apply N.
  apply in_or_app. right. apply in_or_app. now right.
Qed.

Lemma insert_end_ok k par prv nxt p d ch tq pa pr nx h L : let W := ct par prv nxt (Node p d ch) ++ L in
  hrep h W -> incl (ct pa pr nx tq) W -> (tsize tq <= k)%nat ->
  exists h' t, InsertEndChild k h p (addr tq) = DOk (h', Some (addr t)) /\ same tq t /\ fresh_in W [t] /\
    hrep h' (ct par prv nxt (Node p d (ch ++ [t])) ++ L).
Proof.
  intros W H I K. unfold InsertEndChild. destruct (clone_ok tq k pa pr nx h W K H I) as (h1 & t & E & H1 & S1 & _).
  rewrite E. cbn [dbind fst snd]. pose proof (fresh_ct _ _ _ _ _ _ H1) as Fr.
  destruct (link_ok par prv nxt p d ch (addr t) (dat t) (kids t) (cell_of None None None t) h1 L eq_refl eq_refl eq_refl) as (h2 & E2 & H2 & _).
  { eapply hrep_perm; [|exact H1]. rewrite (ct_eq' None None None t). unfold W. perm. }
  rewrite E2. cbn [dbind]. exists h2, t. split; [reflexivity|]. split; [exact S1|]. split; [exact Fr|]. destruct t; exact H2.
Qed.

Lemma insert_before_ok k par prv nxt p d l x rr tq pa pr nx h L : let W := ct par prv nxt (Node p d (l ++ x :: rr)) ++ L in
  hrep h W -> incl (ct pa pr nx tq) W -> (tsize tq <= k)%nat ->
  exists h' t, InsertBeforeChild k h p (Some (addr x)) (addr tq) = DOk (h', Some (addr t)) /\ same tq t /\ fresh_in W [t] /\
    hrep h' (ct par prv nxt (Node p d (l ++ t :: x :: rr)) ++ L).
Proof.
  intros W H I K. unfold InsertBeforeChild.
  assert (G : get h (addr x) = DOk (cell_of (Some p) (last_of None l) (hd_of rr None) x)).
  { eapply hrep_get; [exact H|]. unfold W. rewrite ct_mid. apply in_or_app. left. right. apply in_or_app. right. now left. }
  rewrite G. cbn [dbind cell_of c_parent]. rewrite is_ptr_refl. cbn [negb].
  destruct (clone_ok tq k pa pr nx h W K H I) as (h1 & t & E & H1 & S1 & _). rewrite E. cbn [dbind fst snd].
  pose proof (fresh_ct _ _ _ _ _ _ H1) as Fr. unfold W in H1. rewrite ct_mid, (ct_eq' None None None t) in H1. clear G E H I. clearbody W.
  destruct (last_case l) as [->|(l0 & y & ->)].
  - cbn [cl app hd_of last_of] in H1.
    apply (hrep_perm _ _ ((addr t, cell_of None None None t) :: (addr x, cell_of (Some p) None (hd_of rr None) x) ::
       (p, mkCell par (Some (addr x)) (last_of (Some (addr x)) rr) prv nxt d) :: cl (Some (addr t)) None (kids t) None ++
       cl (Some (addr x)) None (kids x) None ++ cl (Some p) (Some (addr x)) rr None ++ L)) in H1; [|perm].
    wr H1. wr H1. rd H1. wr H1. cbn [cell_of c_prev]. rd H1. cbn [c_first]. rewrite is_ptr_refl. wr H1. wr H1.
    eexists _, t. split; [reflexivity|]. split; [exact S1|]. split; [exact Fr|]. eapply hrep_perm; [|exact H1].
    rewrite ct_mid. cbn [cl app hd_of last_of]. rewrite ct_eq'. cells_norm. perm.
  - rewrite cl_last in H1. rewrite last_of_app in H1. cbn [last_of] in H1.
    apply (hrep_perm _ _ ((addr t, cell_of None None None t) :: (addr x, cell_of (Some p) (Some (addr y)) (hd_of rr None) x) ::
       (addr y, cell_of (Some p) (last_of None l0) (Some (addr x)) y) ::
       (p, mkCell par (hd_of (l0 ++ [y]) (Some (addr x))) (last_of (Some (addr x)) rr) prv nxt d) :: cl (Some (addr t)) None (kids t) None ++
       cl (Some (addr x)) None (kids x) None ++ cl (Some p) (Some (addr x)) rr None ++ cl (Some p) None l0 (Some (addr y)) ++
       cl (Some (addr y)) None (kids y) None ++ L)) in H1; [|perm].
    wr H1. wr H1. rd H1. wr H1. cbn [cell_of c_prev]. wr H1. wr H1.
    eexists _, t. split; [reflexivity|]. split; [exact S1|]. split; [exact Fr|]. eapply hrep_perm; [|exact H1].
    rewrite ct_mid, cl_last, cl_first. rewrite last_of_app. rewrite !hd_of_app. cbn [app hd_of last_of]. cells_norm. perm.
Qed.

Lemma insert_after_ok k par prv nxt p d l x rr tq pa pr nx h L : let W := ct par prv nxt (Node p d (l ++ x :: rr)) ++ L in
  hrep h W -> incl (ct pa pr nx tq) W -> (tsize tq <= k)%nat ->
  exists h' t, InsertAfterChild k h p (Some (addr x)) (addr tq) = DOk (h', Some (addr t)) /\ same tq t /\ fresh_in W [t] /\
    hrep h' (ct par prv nxt (Node p d (l ++ x :: t :: rr)) ++ L).
Proof.
  intros W H I K. unfold InsertAfterChild.
  assert (G : get h (addr x) = DOk (cell_of (Some p) (last_of None l) (hd_of rr None) x)).
  { eapply hrep_get; [exact H|]. unfold W. rewrite ct_mid. apply in_or_app. left. right. apply in_or_app. right. now left. }
  rewrite G. cbn [dbind cell_of c_parent]. rewrite is_ptr_refl. cbn [negb].
  destruct (clone_ok tq k pa pr nx h W K H I) as (h1 & t & E & H1 & S1 & _). rewrite E. cbn [dbind fst snd].
  pose proof (fresh_ct _ _ _ _ _ _ H1) as Fr. unfold W in H1. rewrite ct_mid, (ct_eq' None None None t) in H1. clear G E H I. clearbody W.
  destruct rr as [|z r0].
  - cbn [cl app hd_of last_of] in H1.
    apply (hrep_perm _ _ ((addr t, cell_of None None None t) :: (addr x, cell_of (Some p) (last_of None l) None x) ::
       (p, mkCell par (hd_of l (Some (addr x))) (Some (addr x)) prv nxt d) :: cl (Some (addr t)) None (kids t) None ++
       cl (Some (addr x)) None (kids x) None ++ cl (Some p) None l (Some (addr x)) ++ L)) in H1; [|perm].
    wr H1. wr H1. rd H1. wr H1. cbn [cell_of c_next]. rd H1. cbn [c_last]. rewrite is_ptr_refl. wr H1. wr H1.
    eexists _, t. split; [reflexivity|]. split; [exact S1|]. split; [exact Fr|]. eapply hrep_perm; [|exact H1].
    rewrite ct_mid, cl_first. cbn [cl app hd_of last_of]. cells_norm. perm.
  - rewrite cl_first in H1. cbn [hd_of last_of] in H1.
    apply (hrep_perm _ _ ((addr t, cell_of None None None t) :: (addr x, cell_of (Some p) (last_of None l) (Some (addr z)) x) ::
       (addr z, cell_of (Some p) (Some (addr x)) (hd_of r0 None) z) ::
       (p, mkCell par (hd_of l (Some (addr x))) (last_of (Some (addr z)) r0) prv nxt d) :: cl (Some (addr t)) None (kids t) None ++
       cl (Some (addr x)) None (kids x) None ++ cl (Some p) None l (Some (addr x)) ++ cl (Some p) (Some (addr z)) r0 None ++
       cl (Some (addr z)) None (kids z) None ++ L)) in H1; [|perm].
    wr H1. wr H1. rd H1. wr H1. cbn [cell_of c_next]. wr H1. wr H1.
    eexists _, t. split; [reflexivity|]. split; [exact S1|]. split; [exact Fr|]. eapply hrep_perm; [|exact H1].
    rewrite ct_mid, !cl_first. cbn [app hd_of last_of]. cells_norm. perm.
Qed.

Lemma replace_ok k par prv nxt p d l x rr tq pa pr nx h L : let W := ct par prv nxt (Node p d (l ++ x :: rr)) ++ L in
  hrep h W -> incl (ct pa pr nx tq) W -> (tsize tq <= k)%nat -> (tsize x <= k)%nat ->
  exists h' t, ReplaceChild k h p (addr x) (addr tq) = DOk (h', Some (addr t)) /\ same tq t /\ fresh_in W [t] /\
    hrep h' (ct par prv nxt (Node p d (l ++ t :: rr)) ++ L).
Proof.
  intros W H I K K2. unfold ReplaceChild.
  assert (G : get h (addr x) = DOk (cell_of (Some p) (last_of None l) (hd_of rr None) x)).
  { eapply hrep_get; [exact H|]. unfold W. rewrite ct_mid. apply in_or_app. left. right. apply in_or_app. right. now left. }
  rewrite G. cbn [dbind cell_of c_parent]. rewrite is_ptr_refl. cbn [negb].
  destruct (clone_ok tq k pa pr nx h W K H I) as (h1 & t & E & H1 & S1 & _). rewrite E. cbn [dbind fst snd].
  pose proof (fresh_ct _ _ _ _ _ _ H1) as Fr. unfold W in H1. rewrite ct_mid, (ct_eq' None None None t) in H1. clear G E H I. clearbody W.
  destruct (last_case l) as [->|(l0 & y & ->)], rr as [|z r0].
  - cbn [cl app hd_of last_of] in H1.
    apply (hrep_perm _ _ ((addr t, cell_of None None None t) :: (addr x, cell_of (Some p) None None x) ::
       (p, mkCell par (Some (addr x)) (Some (addr x)) prv nxt d) :: cl (Some (addr t)) None (kids t) None ++
       cl (Some (addr x)) None (kids x) None ++ L)) in H1; [|perm].
    rd H1. cbn [cell_of c_next c_prev]. wr H1. wr H1. wr H1. rd H1. cbn [cell_of c_prev]. wr H1.
    match type of H1 with hrep _ ((_, ?cn) :: _ :: (_, ?cp) :: _) =>
      apply (hrep_perm _ _ (ct (Some p) None None x ++ (addr t, cn) :: (p, cp) :: cl (Some (addr t)) None (kids t) None ++ L)) in H1; [|rewrite (ct_eq' _ _ _ x); perm] end.
    destruct (destroy_ok x k _ _ _ _ _ K2 H1) as (h9 & E9 & H9 & _). rewrite E9. cbn [dbind]. wr H9.
    eexists _, t. split; [reflexivity|]. split; [exact S1|]. split; [exact Fr|]. eapply hrep_perm; [|exact H9].
    rewrite ct_mid. cbn [cl app hd_of last_of]. cells_norm. perm.
  - rewrite cl_first in H1. cbn [cl app hd_of last_of] in H1.
    apply (hrep_perm _ _ ((addr t, cell_of None None None t) :: (addr x, cell_of (Some p) None (Some (addr z)) x) ::
       (addr z, cell_of (Some p) (Some (addr x)) (hd_of r0 None) z) ::
       (p, mkCell par (Some (addr x)) (last_of (Some (addr z)) r0) prv nxt d) :: cl (Some (addr t)) None (kids t) None ++
       cl (Some (addr x)) None (kids x) None ++ cl (Some p) (Some (addr z)) r0 None ++ cl (Some (addr z)) None (kids z) None ++ L)) in H1; [|perm].
    rd H1. cbn [cell_of c_next c_prev]. wr H1. wr H1. wr H1. rd H1. cbn [cell_of c_prev]. wr H1.
    match type of H1 with hrep _ ((_, ?cn) :: _ :: (_, ?cz) :: (_, ?cp) :: ?R) =>
      apply (hrep_perm _ _ (ct (Some p) None (Some (addr z)) x ++ (addr t, cn) :: (p, cp) :: (addr z, cz) :: cl (Some (addr t)) None (kids t) None ++
        cl (Some p) (Some (addr z)) r0 None ++ cl (Some (addr z)) None (kids z) None ++ L)) in H1; [|rewrite (ct_eq' _ _ _ x); perm] end.
    destruct (destroy_ok x k _ _ _ _ _ K2 H1) as (h9 & E9 & H9 & _). rewrite E9. cbn [dbind]. wr H9.
    eexists _, t. split; [reflexivity|]. split; [exact S1|]. split; [exact Fr|]. eapply hrep_perm; [|exact H9].
    rewrite ct_mid, cl_first. cbn [cl app hd_of last_of]. cells_norm. perm.
  - rewrite cl_last in H1. rewrite last_of_app in H1. cbn [cl app hd_of last_of] in H1.
    apply (hrep_perm _ _ ((addr t, cell_of None None None t) :: (addr x, cell_of (Some p) (Some (addr y)) None x) ::
       (addr y, cell_of (Some p) (last_of None l0) (Some (addr x)) y) ::
       (p, mkCell par (hd_of (l0 ++ [y]) (Some (addr x))) (Some (addr x)) prv nxt d) :: cl (Some (addr t)) None (kids t) None ++
       cl (Some (addr x)) None (kids x) None ++ cl (Some p) None l0 (Some (addr y)) ++ cl (Some (addr y)) None (kids y) None ++ L)) in H1; [|perm].
    rd H1. cbn [cell_of c_next c_prev]. wr H1. wr H1. wr H1. rd H1. cbn [cell_of c_prev]. wr H1.
    match type of H1 with hrep _ ((_, ?cn) :: _ :: (_, ?cz) :: (_, ?cp) :: ?R) =>
      apply (hrep_perm _ _ (ct (Some p) (Some (addr y)) None x ++ (addr t, cn) :: (p, cp) :: (addr y, cz) :: cl (Some (addr t)) None (kids t) None ++
        cl (Some p) None l0 (Some (addr y)) ++ cl (Some (addr y)) None (kids y) None ++ L)) in H1; [|rewrite (ct_eq' _ _ _ x); perm] end.
    destruct (destroy_ok x k _ _ _ _ _ K2 H1) as (h9 & E9 & H9 & _). rewrite E9. cbn [dbind]. wr H9.
    eexists _, t. split; [reflexivity|]. split; [exact S1|]. split; [exact Fr|]. eapply hrep_perm; [|exact H9].
    rewrite ct_mid, cl_last. rewrite last_of_app, !hd_of_app. cbn [cl app hd_of last_of]. cells_norm. rewrite ?hd_of_app. cbn [hd_of]. perm.
  - rewrite cl_last, cl_first in H1. rewrite last_of_app in H1. cbn [app hd_of last_of] in H1.
    apply (hrep_perm _ _ ((addr t, cell_of None None None t) :: (addr x, cell_of (Some p) (Some (addr y)) (Some (addr z)) x) ::
       (addr y, cell_of (Some p) (last_of None l0) (Some (addr x)) y) ::
       (addr z, cell_of (Some p) (Some (addr x)) (hd_of r0 None) z) ::
       (p, mkCell par (hd_of (l0 ++ [y]) (Some (addr x))) (last_of (Some (addr z)) r0) prv nxt d) :: cl (Some (addr t)) None (kids t) None ++
       cl (Some (addr x)) None (kids x) None ++ cl (Some p) None l0 (Some (addr y)) ++ cl (Some (addr y)) None (kids y) None ++
       cl (Some p) (Some (addr z)) r0 None ++ cl (Some (addr z)) None (kids z) None ++ L)) in H1; [|perm].
    rd H1. cbn [cell_of c_next c_prev]. wr H1. wr H1. wr H1. rd H1. cbn [cell_of c_prev]. wr H1.
    match type of H1 with hrep _ ((_, ?cn) :: _ :: (_, ?cy) :: (_, ?cz) :: (_, ?cp) :: ?R) =>
      apply (hrep_perm _ _ (ct (Some p) (Some (addr y)) (Some (addr z)) x ++ (addr t, cn) :: (p, cp) :: (addr y, cy) :: (addr z, cz) :: cl (Some (addr t)) None (kids t) None ++
        cl (Some p) None l0 (Some (addr y)) ++ cl (Some (addr y)) None (kids y) None ++ cl (Some p) (Some (addr z)) r0 None ++ cl (Some (addr z)) None (kids z) None ++ L)) in H1; [|rewrite (ct_eq' _ _ _ x); perm] end.
    destruct (destroy_ok x k _ _ _ _ _ K2 H1) as (h9 & E9 & H9 & _). rewrite E9. cbn [dbind]. wr H9.
    eexists _, t. split; [reflexivity|]. split; [exact S1|]. split; [exact Fr|]. eapply hrep_perm; [|exact H9].
    rewrite ct_mid, cl_last, cl_first. rewrite last_of_app, !hd_of_app. cbn [cl app hd_of last_of]. cells_norm. rewrite ?hd_of_app. cbn [hd_of]. perm.
Qed.

Lemma remove_ok k par prv nxt p d l x rr h L :
  hrep h (ct par prv nxt (Node p d (l ++ x :: rr)) ++ L) -> (tsize x <= k)%nat ->
  exists h', RemoveChild k h p (addr x) = DOk h' /\ hrep h' (ct par prv nxt (Node p d (l ++ rr)) ++ L).
Proof.
  intros H1 K2. unfold RemoveChild.
  assert (G : get h (addr x) = DOk (cell_of (Some p) (last_of None l) (hd_of rr None) x)).
  { eapply hrep_get; [exact H1|]. rewrite ct_mid. apply in_or_app. left. right. apply in_or_app. right. now left. }
  rewrite G. cbn [dbind cell_of c_parent c_next c_prev]. rewrite is_ptr_refl. cbn [negb]. rewrite ct_mid in H1. clear G.
  destruct (last_case l) as [->|(l0 & y & ->)], rr as [|z r0].
  - cbn [cl app hd_of last_of] in *.
    apply (hrep_perm _ _ ((addr x, cell_of (Some p) None None x) :: (p, mkCell par (Some (addr x)) (Some (addr x)) prv nxt d) ::
       cl (Some (addr x)) None (kids x) None ++ L)) in H1; [|perm].
    wr H1. rd H1. cbn [cell_of c_next c_prev]. wr H1.
    match type of H1 with hrep _ (_ :: (_, ?cp) :: _) =>
      apply (hrep_perm _ _ (ct (Some p) None None x ++ (p, cp) :: L)) in H1; [|rewrite (ct_eq' _ _ _ x); perm] end.
    destruct (destroy_ok x k _ _ _ _ _ K2 H1) as (h9 & E9 & H9 & _). rewrite E9.
    eexists. split; [reflexivity|]. eapply hrep_perm; [|exact H9]. rewrite ct_eq. cbn [cl app]. cells_norm. cbn [hd_of last_of]. perm.
  - rewrite cl_first in H1. cbn [cl app hd_of last_of] in *.
    apply (hrep_perm _ _ ((addr x, cell_of (Some p) None (Some (addr z)) x) ::
       (addr z, cell_of (Some p) (Some (addr x)) (hd_of r0 None) z) ::
       (p, mkCell par (Some (addr x)) (last_of (Some (addr z)) r0) prv nxt d) ::
       cl (Some (addr x)) None (kids x) None ++ cl (Some p) (Some (addr z)) r0 None ++ cl (Some (addr z)) None (kids z) None ++ L)) in H1; [|perm].
    wr H1. rd H1. cbn [cell_of c_next c_prev]. wr H1.
    match type of H1 with hrep _ (_ :: (_, ?cz) :: (_, ?cp) :: _) =>
      apply (hrep_perm _ _ (ct (Some p) None (Some (addr z)) x ++ (p, cp) :: (addr z, cz) ::
        cl (Some p) (Some (addr z)) r0 None ++ cl (Some (addr z)) None (kids z) None ++ L)) in H1; [|rewrite (ct_eq' _ _ _ x); perm] end.
    destruct (destroy_ok x k _ _ _ _ _ K2 H1) as (h9 & E9 & H9 & _). rewrite E9.
    eexists. split; [reflexivity|]. eapply hrep_perm; [|exact H9]. rewrite ct_eq, cl_first. cells_norm. cbn [hd_of last_of]. perm.
  - rewrite cl_last in H1. rewrite last_of_app in *. cbn [cl app hd_of last_of] in *.
    apply (hrep_perm _ _ ((addr x, cell_of (Some p) (Some (addr y)) None x) ::
       (addr y, cell_of (Some p) (last_of None l0) (Some (addr x)) y) ::
       (p, mkCell par (hd_of (l0 ++ [y]) (Some (addr x))) (Some (addr x)) prv nxt d) ::
       cl (Some (addr x)) None (kids x) None ++ cl (Some p) None l0 (Some (addr y)) ++ cl (Some (addr y)) None (kids y) None ++ L)) in H1; [|perm].
    wr H1. rd H1. cbn [cell_of c_next c_prev]. wr H1.
    match type of H1 with hrep _ (_ :: (_, ?cz) :: (_, ?cp) :: _) =>
      apply (hrep_perm _ _ (ct (Some p) (Some (addr y)) None x ++ (p, cp) :: (addr y, cz) ::
        cl (Some p) None l0 (Some (addr y)) ++ cl (Some (addr y)) None (kids y) None ++ L)) in H1; [|rewrite (ct_eq' _ _ _ x); perm] end.
    destruct (destroy_ok x k _ _ _ _ _ K2 H1) as (h9 & E9 & H9 & _). rewrite E9.
    eexists. split; [reflexivity|]. eapply hrep_perm; [|exact H9]. rewrite ct_eq, app_nil_r, cl_last. cells_norm. rewrite ?hd_of_app, ?last_of_app. cbn [hd_of last_of]. perm.
  - rewrite cl_last, cl_first in H1. rewrite last_of_app in *. cbn [app hd_of last_of] in *.
    apply (hrep_perm _ _ ((addr x, cell_of (Some p) (Some (addr y)) (Some (addr z)) x) ::
       (addr y, cell_of (Some p) (last_of None l0) (Some (addr x)) y) ::
       (addr z, cell_of (Some p) (Some (addr x)) (hd_of r0 None) z) ::
       (p, mkCell par (hd_of (l0 ++ [y]) (Some (addr x))) (last_of (Some (addr z)) r0) prv nxt d) ::
       cl (Some (addr x)) None (kids x) None ++ cl (Some p) None l0 (Some (addr y)) ++ cl (Some (addr y)) None (kids y) None ++
       cl (Some p) (Some (addr z)) r0 None ++ cl (Some (addr z)) None (kids z) None ++ L)) in H1; [|perm].
    wr H1. rd H1. cbn [cell_of c_next c_prev]. wr H1.
    match type of H1 with hrep _ (_ :: (_, ?cy) :: (_, ?cz) :: (_, ?cp) :: ?R) =>
      apply (hrep_perm _ _ (ct (Some p) (Some (addr y)) (Some (addr z)) x ++ (p, cp) :: (addr y, cy) :: (addr z, cz) ::
        cl (Some p) None l0 (Some (addr y)) ++ cl (Some (addr y)) None (kids y) None ++ cl (Some p) (Some (addr z)) r0 None ++ cl (Some (addr z)) None (kids z) None ++ L)) in H1; [|rewrite (ct_eq' _ _ _ x); perm] end.
    destruct (destroy_ok x k _ _ _ _ _ K2 H1) as (h9 & E9 & H9 & _). rewrite E9.
    eexists. split; [reflexivity|]. eapply hrep_perm; [|exact H9]. rewrite ct_eq, cl_app, cl_last, cl_first. cells_norm. rewrite ?hd_of_app, ?last_of_app. cbn [hd_of last_of]. perm.
Qed.

Lemma clear_ok k par prv nxt a d ch h L : hrep h (ct par prv nxt (Node a d ch) ++ L) -> (list_sum (map tsize ch) <= k)%nat ->
  exists h', Clear k h a = DOk h' /\ hrep h' (ct par prv nxt (Node a d []) ++ L) /\ unused h' = unused h.
Proof.
  intros H K. rewrite ct_eq in H. unfold Clear. cbn [app] in H. rewrite (hrep_get1 _ _ _ _ H). cbn [dbind cell_of c_first kids].
  destruct (del_all_ok k k ch (Some a) None h ((a, cell_of par prv nxt (Node a d ch)) :: L)) as (h1 & E1 & H1 & U1);
    [exact K|pose proof (length_sum ch); lia|eapply hrep_perm; [|exact H]; perm|].
  rewrite E1. cbn [dbind]. destruct (hrep_write _ _ _ _ (set_first None) H1) as [E2 H2]. rewrite E2. cbn [dbind].
  destruct (hrep_write _ _ _ _ (set_last None) H2) as [E3 H3]. rewrite E3. eexists. split; [reflexivity|]. split; [exact H3|exact U1].
Qed.
Lemma assign_ok k par prv nxt a d ch tb pb prb nxb h L : hrep h (ct par prv nxt (Node a d ch) ++ L) -> incl (ct pb prb nxb tb) L ->
  (list_sum (map tsize ch) <= k)%nat -> (list_sum (map tsize (kids tb)) <= k)%nat ->
  exists h' ch', Assign k h a (addr tb) = DOk h' /\ Forall2 same (kids tb) ch' /\ (forall x, In x (all ch') -> unused h <= x) /\
    hrep h' (ct par prv nxt (Node a (dat tb) ch') ++ L).
Proof.
  intros H I K1 K2. unfold Assign. destruct (clear_ok k par prv nxt a d ch h L H K1) as (h1 & E1 & H1 & U1). rewrite E1. cbn [dbind].
  rewrite ct_eq in H1. cbn [cl app] in H1. assert (IB : In (addr tb, cell_of pb prb nxb tb) L) by (apply I; rewrite ct_eq'; now left).
  rewrite (hrep_get _ _ _ _ H1 (or_intror IB)). cbn [dbind cell_of c_data].
  destruct (hrep_write _ _ _ _ (set_data (dat tb)) H1) as [E2 H2]. rewrite E2. cbn [dbind].
  rewrite (hrep_get _ _ _ _ H2 (or_intror IB)). cbn [dbind cell_of c_first].
  destruct (copy_all_ok k k (kids tb) (Some (addr tb)) None par prv nxt a (dat tb) [] _ L K2 ltac:(pose proof (length_sum (kids tb)); lia) H2) as (h3 & ch' & E3 & H3 & S3 & A3 & U3).
  { intros y Hy. apply I. rewrite ct_eq'. now right. }
  exists h3, ch'. split; [exact E3|]. split; [exact S3|]. split; [|exact H3]. intros y Hy. apply A3 in Hy. cbn [put unused] in Hy. lia.
Qed.

(** ** with more turns the outcome is the same *)
Definition le_res {A} (r r' : dres A) : Prop := r = DFuel \/ r = r'.
Lemma le_refl {A} (r : dres A) : le_res r r. Proof. now right. Qed.
Lemma le_bind {A B} (r r' : dres A) (f f' : A -> dres B) : le_res r r' -> (forall x, le_res (f x) (f' x)) -> le_res (dbind r f) (dbind r' f').
Proof. intros [->| ->] H; [now left|]. destruct r' as [x| | |]; cbn; try apply H; now right. Qed.
Lemma del_kids_le d d' : (forall h a, le_res (d h a) (d' h a)) -> forall k k' h n, (k <= k')%nat -> le_res (del_kids d k h n) (del_kids d' k' h n).
Proof.
  intros D. induction k as [|k IH]; intros k' h n K; destruct n as [n|].
  - now left.
  - right. destruct k'; reflexivity.
  - destruct k' as [|k']; [lia|]. cbn [del_kids]. apply le_bind; [apply le_refl|intros c]. apply le_bind; [apply D|intros h1]. apply IH. lia.
  - right. destruct k'; reflexivity.
Qed.
Lemma destroy_le : forall k k' h a, (k <= k')%nat -> le_res (destroy k h a) (destroy k' h a).
Proof.
  induction k as [|k IH]; intros k' h a K; [now left|]. destruct k' as [|k']; [lia|]. cbn [destroy].
  apply le_bind; [apply le_refl|intros c]. apply le_bind; [|intros; apply le_refl]. apply del_kids_le; [|lia]. intros; apply IH; lia.
Qed.
Lemma clear_le k k' h a : (k <= k')%nat -> le_res (Clear k h a) (Clear k' h a).
Proof.
  intros K. unfold Clear. apply le_bind; [apply le_refl|intros c]. apply le_bind; [|intros; apply le_refl]. apply del_kids_le; [|lia]. intros; now apply destroy_le.
Qed.
Lemma copy_kids_le d d' : (forall h a, le_res (d h a) (d' h a)) -> forall k k' h t n, (k <= k')%nat -> le_res (copy_kids d k h t n) (copy_kids d' k' h t n).
Proof.
  intros D. induction k as [|k IH]; intros k' h t n K; destruct n as [n|].
  - now left.
  - right. destruct k'; reflexivity.
  - destruct k' as [|k']; [lia|]. cbn [copy_kids]. apply le_bind; [apply D|intros r]. apply le_bind; [apply le_refl|intros h1].
    apply le_bind; [apply le_refl|intros c]. apply IH. lia.
  - right. destruct k'; reflexivity.
Qed.
Lemma clone_le : forall k k' h a, (k <= k')%nat -> le_res (Clone k h a) (Clone k' h a).
Proof.
  induction k as [|k IH]; intros k' h a K; [now left|]. destruct k' as [|k']; [lia|]. cbn [Clone].
  apply le_bind; [apply le_refl|intros c]. destruct (new_node h (c_data c)) as [h1 b]. destruct (has_kids (c_data c)); [|apply le_refl].
  apply le_bind; [|intros; apply le_refl]. apply copy_kids_le; [|lia]. intros; apply IH; lia.
Qed.
Lemma step_le k k' h c : (k <= k')%nat -> le_res (step k h c) (step k' h c).
Proof.
  intros K. destruct c as [d|p n|p q|p [b|] q|p [b|] q|p b q|p b|a|a|a|a b]; cbn [step].
  - apply le_refl.
  - apply le_refl.
  - apply le_bind; [now apply clone_le|intros; apply le_refl].
  - apply le_bind; [apply le_refl|intros c]. destruct (negb _); [apply le_refl|]. apply le_bind; [now apply clone_le|intros; apply le_refl].
  - apply le_refl.
  - apply le_bind; [apply le_refl|intros c]. destruct (negb _); [apply le_refl|]. apply le_bind; [now apply clone_le|intros; apply le_refl].
  - apply le_refl.
  - apply le_bind; [apply le_refl|intros c]. destruct (negb _); [apply le_refl|]. apply le_bind; [now apply clone_le|intros r].
    cbv zeta. repeat (apply le_bind; [first [apply le_refl|now apply destroy_le]|intros ?]). apply le_refl.
  - apply le_bind; [|intros; apply le_refl]. apply le_bind; [apply le_refl|intros c]. destruct (negb _); [apply le_refl|].
    repeat (apply le_bind; [apply le_refl|intros ?]). now apply destroy_le.
  - apply le_bind; [now apply clear_le|intros; apply le_refl].
  - apply le_bind; [now apply destroy_le|intros; apply le_refl].
  - apply le_bind; [now apply clone_le|intros; apply le_refl].
  - apply le_bind; [|intros; apply le_refl]. apply le_bind; [now apply clear_le|intros h1]. repeat (apply le_bind; [apply le_refl|intros ?]).
    apply copy_kids_le; [|lia]. intros; now apply clone_le.
Qed.
