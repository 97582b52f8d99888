(** C96: handles, which wrap pointers to the nodes of documents with checks for null. *)
From Coq Require Import ZArith List String Bool Lia.
From Verif Require Import DomModel DomSpec DomProofs4 DomProofs5 PropDom HandleModel HandleSpec HandleProofs.
Import ListNotations.
Open Scope Z_scope.

(** A chain of calls on a handle to a node leads to the node it should, or to null if there is none, without undefined behaviour. *)
Theorem C96_chain : forall h F k cs t, links h F -> (List.length (all F) <= k)%nat -> node_of F t ->
  chained k h cs (Some (addr t)) = DOk (option_map addr (path cs t)).
Proof. intros h F k cs t L K T. now apply (chain_ok k h F). Qed.
Print Assumptions C96_chain.

(** From null everything leads to null, whatever nodes there are. *)
Theorem C96_null : forall h k cs, chained k h cs None = DOk None.
Proof. intros. apply null_ok. Qed.
Print Assumptions C96_null.

(** Element, Text and Unknown return the node if it is of that kind, and otherwise, and from null, null. *)
Theorem C96_casts : forall h F want t, links h F -> node_of F t -> In want [KElem; KText; KUnknown] ->
  HCast want h None = DOk None /\
  (n_kind (dat t) = want -> HCast want h (Some (addr t)) = DOk (Some (addr t))) /\ (n_kind (dat t) <> want -> HCast want h (Some (addr t)) = DOk None).
Proof.
  intros h F want [a d ch] L T W. split; [reflexivity|]. destruct (node_data h F a d ch L T) as (c & G & C). cbn [dat addr]. unfold HCast. rewrite G. cbn [dbind]. rewrite C.
  destruct W as [<-|[<-|[<-|[]]]]; destruct (n_kind d); split; intros E; try reflexivity; congruence.
Qed.
Print Assumptions C96_casts.

(** A negative index is not refused: it means the first child. *)
Theorem C96_negative_index_refuted : forall h F k v n t x, links h F -> (List.length (all F) <= k)%nat -> node_of F t -> n < 0 ->
  hd_error (filter (has_value v) (kids t)) = Some x -> chained k h [Child_ v n] (Some (addr t)) = DOk (Some (addr x)).
Proof.
  intros h F k v n t x L K T N E. rewrite (C96_chain h F k _ t L K T). cbn [path led_to]. unfold numbered. destruct (Z.ltb_spec n 0); [|lia]. now rewrite E.
Qed.
Print Assumptions C96_negative_index_refuted.

(** The checks are only for null: any call on a handle to a node that is no more is undefined behaviour, for instance after its deletion. *)
Theorem C96_dangling_refuted : forall h F k c a, links h F -> ~ In a (all F) -> on_handle k h c (Some a) = DUB.
Proof. intros. eapply dangling; eassumption. Qed.
Print Assumptions C96_dangling_refuted.
Theorem C96_after_delete_refuted : forall h F k t, reach h -> links h F -> In t F -> (List.length (all F) <= k)%nat ->
  exists h', step k h (NDelete (addr t)) = DOk (h', None) /\ forall a, In a (addrs t) -> forall k' c, on_handle k' h' c (Some a) = DUB.
Proof.
  intros h F k t R L I K. destruct (C91_calls h F (NDelete (addr t)) k R L) as (h' & r & F' & E & D & L'); [|exact K|].
  - cbn. now apply in_map.
  - destruct D as (l & t' & rr & EF & A & -> & ->). exists h'. split; [exact E|]. intros a Ha k' c. apply (dangling k' h' _ a c L').
    destruct L as (ND & _). assert (TT : t' = t).
    { assert (J : In t' F) by (rewrite EF; apply in_elt). clear -ND I J A. unfold all in ND. induction F as [|y F IH]; [destruct I|]. cbn [flat_map] in ND.
      assert (AD : forall z : tree, In (addr z) (addrs z)) by (intros [? ? ?]; now left).
      assert (X : forall z, In z F -> addr z = addr y -> False).
      { intros z Z1 Z2. destruct y as [b e c]. cbn [addrs app] in ND. inversion ND as [|q w NI _]; subst. apply NI. apply in_or_app. right. cbn [addr] in Z2. rewrite <- Z2. apply in_flat_map. eauto. }
      destruct I as [->|I], J as [->|J]; [reflexivity|exfalso; now apply (X t')|exfalso; apply (X t); auto|]. apply IH; [|exact I|exact J]. clear -ND. induction (addrs y) as [|q w IHw]; [exact ND|]. inversion ND; auto. }
    subst t'. rewrite EF in ND. unfold all in *. rewrite !flat_map_app in *. cbn [flat_map] in ND. intros Q. clear -ND Ha Q. induction (flat_map addrs l) as [|q w IHw].
    + cbn [app] in *. induction (addrs t) as [|q w IHw]; [destruct Ha|]. cbn [app] in ND. inversion ND as [|q' w' NI ND']; subst. destruct Ha as [->|Ha]; [apply NI; apply in_or_app; now right|now apply IHw].
    + cbn [app] in *. inversion ND as [|q' w' NI ND']; subst. destruct Q as [->|Q]; [apply NI; apply in_or_app; right; apply in_or_app; now left|now apply IHw].
Qed.
Print Assumptions C96_after_delete_refuted.

(** ** example: the document of PropDom *)
Example demo_handles : let h := after demo_calls in let go cs := chained 9 h cs (Some 1) in
  go [FirstChild_ (Some "a"%string); Child_ None 1] = DOk (Some 4) /\ go [FirstChildElement_ None; ChildElement_ (Some "b"%string) 1] = DOk (Some 4) /\
  go [FirstChild_ (Some "x"%string); Child_ None 1; FirstChild_ None] = DOk None /\ go [FirstChild_ None; Child_ None (-5)] = DOk (Some 3) /\
  go [FirstChild_ None; Child_ None 2] = DOk None.
Proof. repeat split; reflexivity. Qed.
Example demo_path : path [FirstChild_ (Some "a"%string); Child_ None 1] (Node 1 doc [Node 2 (el "a") [Node 3 (el "b") []; Node 4 (el "b") []]]) = Some (Node 4 (el "b") []).
Proof. reflexivity. Qed.
Example demo_meets : reach (after demo_calls) /\ links (after demo_calls) demo_forest /\ (List.length (all demo_forest) <= 9)%nat /\
  In (Node 1 doc [Node 2 (el "a") [Node 3 (el "b") []; Node 4 (el "b") []]]) demo_forest /\ ~ In 7 (all demo_forest).
Proof. split; [exact demo_reach|]. split; [exact demo_links|]. split; [cbn; lia|]. split; [now left|]. cbn. intuition lia. Qed.
