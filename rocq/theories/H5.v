(** HDF5 files as h5py presents them, and /repo/spec2nexus/eznx.py.

    A file is a list of objects; an object is known by its position, the root group by 0.  An object
    that is no longer linked stays in the list.  Simplifications: the order in which h5py lists the
    members of a group, storage types, integer overflow, NUL characters, the size limit of attributes
    and errors of the file system are not modelled; [del] through a path whose parent is not a group
    and the like all raise some exception, whose type may differ from that of h5py. *)
From Coq Require Import String.
From Verif Require Import Py Utils.
Import ListNotations.
Local Open Scope list_scope.

(* ------------------------------------------------------------------ *)
(** * A state and exception monad *)

Definition St (S A : Type) := S -> S * res A.
Definition sret {S A} (a : A) : St S A := fun s => (s, Ok a).
Definition sraise {S A} (e : exn) : St S A := fun s => (s, Raise e).
Definition slift {S A} (r : res A) : St S A := fun s => (s, r).
Definition sbind {S A B} (m : St S A) (k : A -> St S B) : St S B := fun s =>
  match m s with
  | (s', Ok a) => k a s'
  | (s', Raise e) => (s', Raise e)
  end.
Notation "'let*' x := m 'in' k" := (sbind m (fun x => k))
  (at level 200, x pattern, m at level 100, k at level 200, right associativity).
Notation "m >>> k" := (sbind m (fun _ => k)) (at level 199, right associativity).
Fixpoint siter {S A} (f : A -> St S unit) (l : list A) : St S unit :=
  match l with
  | [] => sret tt
  | x :: t => f x >>> siter f t
  end.

(* ------------------------------------------------------------------ *)
(** * Objects *)

(** contents of a dataset: texts, or numbers in row-major order with a shape *)
Inductive hval := HTexts (l : list str) | HArr (shape : list nat) (vs : list num).
(** contents of an attribute *)
Inductive aval := AText (s : str) | ATexts (l : list str) | ANum (n : num) | ANums (l : list Z).
Inductive node :=
| Group (members : dict nat) (attrs : dict aval)
| Dset (v : hval) (attrs : dict aval).
Definition h5 := list node.
Definition HM := St h5.

(** h5py.File(name, "w") (writer.py 62) *)
Definition new_file : h5 := [Group [] []].

(** an open object and its [name]: the absolute path by which it was made or opened *)
Record handle := mk_handle { h_id : nat; h_name : str }.
Definition root : handle := mk_handle 0 (L "/").

(** assignment to one element of a list *)
Fixpoint put_nth {A} (n : nat) (x : A) (l : list A) : list A :=
  match l, n with
  | [], _ => []
  | _ :: t, O => x :: t
  | y :: t, S m => y :: put_nth m x t
  end.

(* ------------------------------------------------------------------ *)
(** * Paths (h5py: Group.__getitem__, __contains__, __setitem__, __delitem__, create_group,
      create_dataset) *)

Definition SLASH : N := 47%N.
(** repeated and trailing slashes and "." are ignored by HDF5 *)
Definition parts (p : str) : list str :=
  List.filter (fun x => negb (seqb x [] || seqb x (L "."))) (split_c SLASH p).
(** a path that begins with a slash starts at the root *)
Definition start (i : nat) (p : str) : nat := if prefixb [SLASH] p then 0 else i.

Fixpoint walk (ps : list str) (i : nat) (f : h5) : option nat :=
  match ps with
  | [] => Some i
  | n :: t => match nth_error f i with
              | Some (Group ms _) => match dget n ms with
                                     | Some j => walk t j f
                                     | None => None
                                     end
              | _ => None
              end
  end.
(** [p in group]; the empty name is never there *)
Definition resolve (i : nat) (p : str) (f : h5) : option nat :=
  match p with [] => None | _ => walk (parts p) (start i p) f end.

(** the [name] of what is reached by path [p] from an object of name [pn] *)
Definition sub_name (pn p : str) : str :=
  let base := if prefixb [SLASH] p then [] else parts pn in
  [SLASH] ++ join [SLASH] (base ++ parts p).

Definition hin (g : handle) (p : str) : HM bool :=
  fun f => (f, Ok (match resolve (h_id g) p f with Some _ => true | None => false end)).
(** [group[p]] *)
Definition hget (g : handle) (p : str) : HM handle :=
  fun f => (f, match resolve (h_id g) p f with
               | Some j => Ok (mk_handle j (sub_name (h_name g) p))
               | None => Raise KeyError
               end).

Definition alloc (n : node) : HM nat := fun f => (f ++ [n], Ok (List.length f)).
(** a new link in a group; [j] is an object of the file in all calls (a link to anything else cannot be
    expressed with h5py) *)
Definition add_member (i : nat) (n : str) (j : nat) : HM unit := fun f =>
  match nth_error f i with
  | Some (Group ms a) => if has n ms then (f, Raise ValueError)
                         else if Nat.leb (List.length f) j then (f, Raise NotModelled)
                         else (put_nth i (Group (ms ++ [(n, j)]) a) f, Ok tt)
  | _ => (f, Raise AttributeError)
  end.
(** the group in which the last name of a path is made; missing groups on the way are created *)
Fixpoint dig (ps : list str) (i : nat) : HM nat := fun f =>
  match ps with
  | [] => (f, Ok i)
  | n :: t =>
      match nth_error f i with
      | Some (Group ms _) =>
          match dget n ms with
          | Some j => dig t j f
          | None => (let* j := alloc (Group [] []) in add_member i n j >>> dig t j) f
          end
      | _ => (f, Raise AttributeError)
      end
  end.
(** is the name free in that group? *)
Definition free (i : nat) (n : str) : HM unit := fun f =>
  (f, match nth_error f i with
      | Some (Group ms _) => if has n ms then Raise ValueError else Ok tt
      | _ => Raise AttributeError
      end).
(** make a link called [p] to an object *)
Definition link_at (i : nat) (p : str) (j : nat) : HM unit :=
  match rev (parts p) with
  | [] => sraise ValueError
  | n :: r => let* g := dig (rev r) (start i p) in add_member g n j
  end.
(** make an object called [p] *)
Definition create_at (i : nat) (p : str) (nd : node) : HM nat :=
  match rev (parts p) with
  | [] => sraise ValueError
  | n :: r => let* g := dig (rev r) (start i p) in
              free g n >>>
              let* j := alloc nd in add_member g n j >>> sret j
  end.
(** [del group[p]] *)
Definition del_member (i : nat) (n : str) : HM unit := fun f =>
  match nth_error f i with
  | Some (Group ms a) => if has n ms then (put_nth i (Group (ddel n ms) a) f, Ok tt)
                         else (f, Raise KeyError)
  | _ => (f, Raise KeyError)
  end.
Definition hdel (g : handle) (p : str) : HM unit := fun f =>
  match rev (parts p) with
  | [] => (f, Raise KeyError)
  | n :: r => match walk (rev r) (start (h_id g) p) f with
              | Some i => del_member i n f
              | None => (f, Raise KeyError)
              end
  end.

(** [obj.attrs[k] = v] *)
Definition set_attr (i : nat) (k : str) (v : aval) : HM unit := fun f =>
  match nth_error f i with
  | Some (Group ms a) => (put_nth i (Group ms (dset k v a)) f, Ok tt)
  | Some (Dset x a) => (put_nth i (Dset x (dset k v a)) f, Ok tt)
  | None => (f, Raise AttributeError)
  end.
Definition attrs_at (i : nat) (f : h5) : dict aval :=
  match nth_error f i with
  | Some (Group _ a) | Some (Dset _ a) => a
  | None => []
  end.

(* ------------------------------------------------------------------ *)
(** * eznx.py *)

(** [s.encode("ascii", "ignore")] *)
Definition ascii (s : str) : str := List.filter (fun c => (c <? 128)%N) s.

Definition attrs_t := list (str * aval).

(** eznx.py 220-230 *)
Definition addAttributes (o : handle) (l : attrs_t) : HM unit :=
  siter (fun kv => set_attr (h_id o) (fst kv) (snd kv)) l.

(** eznx.py 79-97 *)
Definition makeGroup (parent : handle) (name : str) (nxclass : str) (l : attrs_t) : HM handle :=
  let* i := create_at (h_id parent) name (Group [] []) in
  let o := mk_handle i (sub_name (h_name parent) name) in
  set_attr i (L "NX_class") (AText nxclass) >>>
  addAttributes o l >>>
  sret o.

(** eznx.py 100-113 *)
Definition openGroup (parent : handle) (name : str) (nxclass : str) (l : attrs_t) : HM handle := fun f =>
  match resolve (h_id parent) name f with
  | Some j => (let o := mk_handle j (sub_name (h_name parent) name) in
               addAttributes o l >>> sret o) f
  | None => makeGroup parent name nxclass l f
  end.

(** the Python values that the writers pass as data *)
Inductive pydata :=
| DText (s : str) | DNum (n : num) | DTexts (l : list str) | DNums (l : list num)
| DRows (rows : list (list num))             (* a list of lists *)
| DArr (a : array num)                       (* a numpy array *)
| DRange (n : nat)                           (* range(1, n + 1) *)
| DOther.                                    (* something HDF5 cannot store *)
(** what h5py stores for eznx.py 134-146: scalars (and a range) are put into a list; the empty list
    has the shape (0,); rows of different lengths are refused *)
Definition to_hval (d : pydata) : res hval :=
  match d with
  | DText s => Ok (HTexts [ascii s])
  | DNum n => Ok (HArr [1%nat] [n])
  | DTexts [] => Ok (HArr [0%nat] [])
  | DTexts l => Ok (HTexts (map ascii l))
  | DNums l => Ok (HArr [List.length l] l)
  | DRows [] => Ok (HArr [0%nat] [])
  | DRows (r :: t) =>
      if forallb (fun x => Nat.eqb (List.length x) (List.length r)) t
      then Ok (HArr [List.length (r :: t); List.length r] (List.concat (r :: t)))
      else Raise ValueError
  | DArr a => match shape a with
              | O :: _ => Ok (HArr [0%nat] [])
              | sh => Ok (HArr sh (flat a))
              end
  | DRange n => Ok (HArr [1%nat; n] (map (fun i => NI (Z.of_nat i)) (seq 1 n)))
  | DOther => Raise TypeError
  end.

(** eznx.py 116-149 (data is never None here) *)
Definition makeDataset (parent : handle) (name : str) (d : pydata) (l : attrs_t) : HM handle :=
  let* v := slift (to_hval d) in
  let* i := create_at (h_id parent) name (Dset v []) in
  let o := mk_handle i (sub_name (h_name parent) name) in
  addAttributes o l >>> sret o.

(** eznx.py 152-165 *)
Definition write_dataset (parent : handle) (name : str) (d : pydata) (l : attrs_t) : HM handle :=
  let* b := hin parent name in
  (if b then hdel parent name else sret tt) >>>
  makeDataset parent name d l.

(** eznx.py 168-182: [parent[str_source]] is evaluated before the link is made *)
Definition makeLink (parent source : handle) (targetName : str) : HM unit :=
  (fun f => if has (L "target") (attrs_at (h_id source) f) then (f, Ok tt)
            else set_attr (h_id source) (L "target") (AText (h_name source)) f) >>>
  let* o := hget parent (ascii (h_name source)) in
  link_at (h_id parent) (ascii targetName) (h_id o).
