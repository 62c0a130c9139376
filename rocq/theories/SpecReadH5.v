(** What should be read from the fields of an HDF5 file. *)
From Coq Require Import String.
From Verif Require Import Py Utils H5 SpecH5 SpecEntry ReadH5.
Import ListNotations.
Local Open Scope list_scope.

(** the contents of a dataset with one dimension, as they are read: one element is read as a single value *)
Inductive value_back : hval -> got -> Prop :=
| vb_text s : value_back (HTexts [s]) (GText s)
| vb_num x : value_back (HArr [1] [x]) (GNum x)
| vb_texts l : 2 <= List.length l -> value_back (HTexts l) (GTexts l)
| vb_nums l : 2 <= List.length l -> value_back (HArr [List.length l] l) (GNums l).
(** what was written, as it is read: texts are without their characters that are not ASCII *)
Inductive comes_back : pydata -> got -> Prop :=
| cb_text s u : ascii_of s u -> comes_back (DText s) (GText u)
| cb_num x : comes_back (DNum x) (GNum x)
| cb_texts l m : 2 <= List.length l -> Forall2 ascii_of l m -> comes_back (DTexts l) (GTexts m)
| cb_nums l : 2 <= List.length l -> comes_back (DNums l) (GNums l)
| cb_one_text s u : ascii_of s u -> comes_back (DTexts [s]) (GText u)
| cb_one_num x : comes_back (DNums [x]) (GNum x)
| cb_array a n : shape a = [n] -> 2 <= n -> List.length (flat a) = n -> comes_back (DArr a) (GNums (flat a)).

(** contents that cannot be read: more than one dimension, or no elements *)
Inductive refused : hval -> exn -> Prop :=
| re_rows sh vs : 2 <= List.length sh -> refused (HArr sh vs) RuntimeError
| re_no_numbers n : refused (HArr [n] []) IndexError
| re_no_texts : refused (HTexts []) IndexError.
(** ... as they are written: a list of rows of the same length, arrays like a mesh, empty lists *)
Inductive refused_data : pydata -> exn -> Prop :=
| rd_rows r rows : (forall x, In x rows -> List.length x = List.length r) -> refused_data (DRows (r :: rows)) RuntimeError
| rd_array a n m sh : shape a = S n :: m :: sh -> refused_data (DArr a) RuntimeError
| rd_range n : refused_data (DRange n) RuntimeError
| rd_no_texts : refused_data (DTexts []) IndexError
| rd_no_numbers : refused_data (DNums []) IndexError.

(** calls of eznx that add to a file *)
Inductive adds : h5 -> h5 -> Prop :=
| A_none f : adds f f
| A_attr f o l f' r f'' : addAttributes o l f = (f', r) -> adds f' f'' -> adds f f''
| A_make f o n c l f' r f'' : makeGroup o n c l f = (f', r) -> adds f' f'' -> adds f f''
| A_open f o n c l f' r f'' : openGroup o n c l f = (f', r) -> adds f' f'' -> adds f f''
| A_dset f o n d l f' r f'' : makeDataset o n d l f = (f', r) -> adds f' f'' -> adds f f''
| A_link f o s t f' r f'' : makeLink o s t f = (f', r) -> adds f' f'' -> adds f f''.
