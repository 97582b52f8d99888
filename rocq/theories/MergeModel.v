(** Model of the merging of two files, src/gearxml/MergeXML.cc and include/gear/gearxml/MergeXML.h.
    The nodes of the recessive file are never changed, those of the dominant copy are: functions
    return the new children of the dominant node.  Simplification: writing the merged file
    succeeds; its contents are the outcome. *)
From Coq Require Import ZArith List String Ascii Bool.
From Verif Require Import Base XmlModel HxModel.
Import ListNotations.
Local Open Scope string_scope.

(** Clone and CopyTo of the node types: TiXmlElement, tinyxml.cc 849-880, TiXmlText 1241-1256,
    TiXmlComment 1209-1225, TiXmlUnknown 1374-1390, TiXmlDeclaration 1338-1358.  Values go through
    C strings, attributes are set one by one. *)
Fixpoint clone_node (n : xnode) : xnode :=
  match n with
  | XElem name a ch => XElem (c_str name) (attrs_of a) (map clone_node ch)
  | XText s => XText (c_str s)
  | XComment s => XComment (c_str s)
  | XUnknown s => XUnknown (c_str s)
  | XDecl v e s => XDecl v e s
  end.

(** hasAttribute, MergeXML.cc 198-201; [_name] is "name" *)
Definition hasAttribute (n : xnode) : bool :=
  match n with
  | XElem _ a _ => match Attribute "name" a with Some _ => true | None => false end
  | _ => false
  end.

(** getNodeName, MergeXML.cc 181-194 *)
Definition getNodeName (n : xnode) : string :=
  match n with
  | XElem v a _ => match Attribute "name" a with Some s => s | None => c_str v end
  | _ => c_str (Value n)
  end.

(** the comparison in countNodes (224) and getChildNode (266) *)
Definition matches (n x : xnode) : bool :=
  String.eqb (getNodeName x) (getNodeName n) && Bool.eqb (hasAttribute n) (hasAttribute x).

(** countNodes, MergeXML.cc 205-233 *)
Definition countNodes (child : xnode) (siblings : list xnode) : Z :=
  Z.of_nat (List.length (filter (matches child) siblings)).

(** getChildNode, MergeXML.cc 237-284: the position of the child and the child *)
Fixpoint child_at (n : xnode) (siblings : list xnode) (occ : Z) : option (nat * xnode) :=
  match siblings with
  | [] => None
  | x :: t =>
      if matches n x
      then if (occ =? 1)%Z then Some (0%nat, x)
           else option_map (fun p => (S (fst p), snd p)) (child_at n t (occ - 1))
      else option_map (fun p => (S (fst p), snd p)) (child_at n t occ)
  end.

(** mergeAttribute, MergeXML.cc 288-320.  Name() and Value() are C strings. *)
Definition merge_attrs (a dom : list (string * string)) : list (string * string) :=
  fold_left (fun d kv => match Attribute (c_str (fst kv)) d with
                         | None => SetAttribute (c_str (fst kv)) (c_str (snd kv)) d
                         | Some _ => d
                         end) a dom.
Definition mergeAttribute (x d : xnode) : xnode :=
  match x, d with
  | XElem _ a _, XElem n da ch => XElem n (merge_attrs a da) ch
  | _, _ => d
  end.

Definition with_children (d : xnode) (ch : list xnode) : xnode :=
  match d with XElem n a _ => XElem n a ch | _ => d end.

Fixpoint set_nth (i : nat) (x : xnode) (l : list xnode) : list xnode :=
  match l, i with
  | [], _ => []
  | _ :: t, O => x :: t
  | y :: t, S i' => y :: set_nth i' x t
  end.

(** mergeNode, MergeXML.cc 87-177.  The test in 101 is never true.  [dch] are the children of
    domNode.  A null FirstChild() in 165 is [UB]. *)
Fixpoint mergeNode (node : xnode) (dch : list xnode) {struct node} : result (list xnode) :=
  match node with
  | XElem _ _ ch =>
      (fix loop (l : list xnode) (dch : list xnode) (lastName : string) (occurence : Z) {struct l}
         : result (list xnode) :=
         match l with
         | [] => Ok dch
         | x :: t =>
             let countRec := countNodes x ch in                                   (* 115 *)
             let countDom := countNodes x dch in                                  (* 116 *)
             if (((1 <? countRec) || (1 <? countDom)) && negb (countDom =? countRec))%Z%bool  (* 122 *)
             then Throw (EGear "ERROR. Counter")
             else
               let occurence := if String.eqb lastName (getNodeName x) then (occurence + 1)%Z else 1%Z in (* 137-142 *)
               let lastName := getNodeName x in                                   (* 143 *)
               match child_at x dch occurence with                                (* 146 *)
               | None => loop t (dch ++ [clone_node x])%list lastName occurence   (* 151 *)
               | Some (i, d) =>
                   let d := mergeAttribute x d in                                 (* 158-162 *)
                   if hasAttribute x then
                     match children x with
                     | [] => UB                                                   (* 165 *)
                     | c :: _ =>
                         if is_text c then loop t (set_nth i d dch) lastName occurence
                         else rbind (mergeNode x (children d)) (fun ch' =>        (* 166 *)
                              loop t (set_nth i (with_children d ch') dch) lastName occurence)
                     end
                   else loop t (set_nth i d dch) lastName occurence
               end
         end) ch dch "" 0%Z
  | _ => Ok dch
  end.

(** ** MergeXML *)
(** data members, MergeXML.h 93-108; a document is the list of its nodes *)
Record merger := mkMerger { _file1 : option (list xnode); _file2 : option (list xnode); _domFile : Z }.
(** MergeXML.h 46-54 *)
Definition new_merger : merger := mkMerger None None 2.
(** MergeXML.h 35-40 *)
Definition makeDominant (m : merger) (n : Z) : merger :=
  if ((n =? 1) || (n =? 2))%Z%bool then mkMerger (_file1 m) (_file2 m) n else m.
(** setFile1, setFile2, MergeXML.cc 9-22; [bytes] are the contents of the file *)
Definition setFile1 (m : merger) (bytes : string) : sres merger bool :=
  match LoadFile bytes with
  | POk (d, ok) => SOk (mkMerger (Some d) (_file2 m) (_domFile m)) ok
  | _ => SUB
  end.
Definition setFile2 (m : merger) (bytes : string) : sres merger bool :=
  match LoadFile bytes with
  | POk (d, ok) => SOk (mkMerger (_file1 m) (Some d) (_domFile m)) ok
  | _ => SUB
  end.

(** TiXmlDocument::operator=, tinyxml.cc 913-918 and 1016-1028 *)
Definition clone_doc (d : list xnode) : list xnode := map clone_node d.

(** correctDominantFile, MergeXML.cc 25-33; null pointers are dereferenced *)
Definition correctDominantFile (m : merger) : option merger :=
  if (_domFile m =? 1)%Z then
    match _file1 m, _file2 m with
    | Some a, Some b => Some (mkMerger (Some (clone_doc b)) (Some (clone_doc (clone_doc a))) 1)
    | _, _ => None
    end
  else Some m.

(** the first node with the given value, tinyxml.cc 342-351 *)
Definition first_of (v : string) (l : list xnode) : option xnode := find (fun c => String.eqb (Value c) v) l.
(** the same node changed in place *)
Fixpoint change_first (v : string) (f : xnode -> xnode) (l : list xnode) : list xnode :=
  match l with
  | [] => []
  | c :: t => if String.eqb (Value c) v then f c :: t else c :: change_first v f t
  end.

(** mergeNode( node, domNode ) for the section [v] of the two gear nodes with children [g1] and [g];
    either node may be null *)
Definition merge_section (v : string) (g1 g : list xnode) : result (list xnode) :=
  match first_of v g1 with
  | None => UB
  | Some n1 =>
      match first_of v g with
      | None => match children n1 with [] => Ok g | _ => UB end
      | Some n => rbind (mergeNode n1 (children n)) (fun ch => Ok (change_first v (fun d => with_children d ch) g))
      end
  end.

(** mergeFiles, MergeXML.cc 36-83: [None] is the return value false, [Some text] what is written.
    [_fileMerged] is made anew by every call. *)
Definition mergeFiles (m : merger) : sres merger (option string) :=
  match correctDominantFile m with
  | None => SUB
  | Some m =>
      match _file1 m, _file2 m with
      | Some f1, Some f2 =>
          let merged := clone_doc f2 in                                           (* 50-51 *)
          match first_of "gear" f1, first_of "gear" merged with                   (* 54-57 *)
          | Some gear1, Some gear =>
              match first_of "detectors" (children gear1), first_of "detectors" (children gear) with
              | Some _, Some _ =>
                  match rbind (merge_section "global" (children gear1) (children gear)) (fun g =>
                        rbind (merge_section "detectors" (children gear1) g) (fun g =>
                        merge_section "materials" (children gear1) g)) with       (* 77-79 *)
                  | Ok g => SOk m (Some (print_doc (change_first "gear" (fun d => with_children d g) merged)))
                  | Throw e => SThrow m e
                  | UB => SUB
                  end
              | _, _ => SOk m None
              end
          | _, _ => SOk m None
          end
      | _, _ => SUB
      end
  end.
