(** What a NeXus file says about the #UXML metadata of a scan. *)
From Coq Require Import String.
From Verif Require Import Py Utils Handlers H5 SpecH5 SpecEntry.
Import ListNotations.
Local Open Scope list_scope.

(** the node [x] is at the path [ps] of names below the nodes [b] (a comment has no name) *)
Inductive elem : list xnode -> list str -> xnode -> Prop :=
| el_comment b : In XComment b -> elem b [] XComment
| el_data b n t u l y : In (XData n t u l y) b -> elem b [n] (XData n t u l y)
| el_group b n c u l y : In (XGroup n c u l y) b -> elem b [n] (XGroup n c u l y)
| el_link b n t : In (XLink n t) b -> elem b [n] (XLink n t)
| el_in b n c u l y ps x : In (XGroup n c u l y) b -> elem y ps x -> elem b (n :: ps) x.

(** what is stored for a dataset with the attribute [typ] and the text [text] *)
Inductive uxml_value : option str -> option str -> hval -> Prop :=
| uv_int t z : py_int t = Ok z -> uxml_value (Some (L "int")) (Some t) (HArr [1] [NI z])
| uv_float t x : py_float t = Ok x -> uxml_value (Some (L "float")) (Some t) (HArr [1] [NF x])
| uv_str typ t a : typ = None \/ typ = Some (L "str") -> ascii_of t a -> uxml_value typ (Some t) (HTexts [a])
| uv_none typ : typ = None \/ typ = Some (L "str") -> uxml_value typ None (HTexts [L "None"]).

(** the last pair of [l] with the key [k] has the value [v] *)
Definition last_of {V} (k : str) (l : list (str * V)) (v : V) : Prop := exists l1 l2, l = l1 ++ (k, v) :: l2 /\ ~ In k (map fst l2).
(** the object [j] has the attributes [l] *)
Definition has_attrs (f : h5) (j : nat) (l : list (str * str)) : Prop := forall k v, last_of k l v -> attribute f j k (AText v).

(** what the object at the path [ps] says of the element [x] *)
Definition shown (f : h5) (ps : list str) (x : xnode) : Prop :=
  match x with
  | XData _ typ _ l text => exists j v, at_path f ps j /\ uxml_value typ text v /\ dataset f j v /\ has_attrs f j l
  | XGroup _ cls _ l _ => exists j, at_path f ps j /\ is_group f j /\ attribute f j (L "NX_class") (AText cls) /\ has_attrs f j l
  | XComment | XLink _ _ => True
  end.

(** the elements with a unique_id, in the order of the document: the id and the path of the element *)
Fixpoint ids1 (x : xnode) : list (str * list str) :=
  match x with
  | XData n _ (Some i) _ _ => [(i, [n])]
  | XGroup n _ u _ b =>
      (match u with Some i => [(i, [n])] | None => [] end) ++ map (fun p => (fst p, n :: snd p)) (flat_map ids1 b)
  | _ => []
  end.
Definition ids_of (b : list xnode) : list (str * list str) := flat_map ids1 b.
(** the hard links, in the order of the document: the target_id and the path of the link *)
Fixpoint links1 (x : xnode) : list (str * list str) :=
  match x with
  | XLink n t => [(t, [n])]
  | XGroup n _ _ _ b => map (fun p => (fst p, n :: snd p)) (flat_map links1 b)
  | _ => []
  end.
Definition links_of (b : list xnode) : list (str * list str) := flat_map links1 b.
Definition ascii_path (ps : list str) : Prop := Forall (Forall (fun c => (c < 128)%N)) ps.
(** the names of the datasets and groups among the nodes [b] *)
Definition own_name (x : xnode) : list str := match x with XData n _ _ _ _ => [n] | XGroup n _ _ _ _ => [n] | _ => [] end.
Definition sibling_names (b : list xnode) : list str := flat_map own_name b.
