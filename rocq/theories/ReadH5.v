(** Reading fields of HDF5 files: /repo/spec2nexus/eznx.py 233-280.

    Simplifications: the argument [astype] is always None; an array with a numpy type other than
    numbers and texts cannot occur (H5.v). *)
From Coq Require Import String.
From Verif Require Import Py Utils H5.
Import ListNotations.
Local Open Scope list_scope.

(** what is returned: a text, a number, a list of texts, an array of numbers *)
Inductive got := GText (s : str) | GNum (x : num) | GTexts (l : list str) | GNums (l : list num).

(** eznx.py 243-262: [dataset[()]] of a dataset with one dimension is an array, whose first element is taken *)
Definition read_value (v : hval) : res got :=
  match v with
  | HTexts [] => Raise IndexError
  | HTexts [s] => Ok (GText s)
  | HTexts l => Ok (GTexts l)
  | HArr sh vs =>
      if Nat.ltb 1 (List.length sh) then Raise RuntimeError
      else match vs with
           | [] => Raise IndexError
           | [x] => Ok (GNum x)
           | _ => Ok (GNums vs)
           end
  end.
(** eznx.py 233-262: None if the name is not there; a group has no [shape] *)
Definition read_nexus_field (parent : handle) (name : str) (f : h5) : res (option got) :=
  match resolve (h_id parent) name f with
  | None => Ok None
  | Some j => match nth_error f j with
              | Some (Dset v _) => do r <- read_value v; Ok (Some r)
              | _ => Raise AttributeError
              end
  end.
(** eznx.py 265-280 *)
Definition read_nexus_group_fields (parent : handle) (name : str) (fields : list str) (f : h5) : res (dict (option got)) :=
  do group <- snd (hget parent name f);
  do l <- mapM (fun key => do v <- read_nexus_field group key f; Ok (key, v)) fields;
  Ok (fold_left (fun d kv => dset (fst kv) (snd kv) d) l []).
