(** The control lines of the supplied handlers, by the form of their first word,
    independent of the regular expressions used in the code. *)
From Coq Require Import String.
From Verif Require Import Py Keys SpecText.
Import ListNotations.
Local Open Scope list_scope.

Inductive shape :=
| Exactly (s : string)      (* just this text *)
| Numbered (s : string)     (* this text and at least one digit *)
| MaybeNumbered (s : string)(* this text and any digits *)
| Named (s : string)        (* this text and any letters, digits, underscores *)
| AnyCase (s : string)      (* this text in capital or small letters *)
| Number.                   (* starts with a number *)

Definition shaped (sh : shape) (w : str) : Prop :=
  match sh with
  | Exactly s => w = L s
  | Numbered s => exists ds, w = L s ++ ds /\ ds <> [] /\ Forall (fun c => is_dec c = true) ds
  | MaybeNumbered s => exists ds, w = L s ++ ds /\ Forall (fun c => is_dec c = true) ds
  | Named s => exists t, w = L s ++ t /\ Forall (fun c => is_word c = true) t
  | AnyCase s => lower w = lower (L s)
  | Number => exists n f, first_word_is w n /\ py_float n = Ok f
  end.

Definition shape_of (h : hid) : shape :=
  (match h with
  | H_F => Exactly "#F" | H_E => Exactly "#E" | H_D => Exactly "#D" | H_C => Exactly "#C" | H_S => Exactly "#S"
  | H_G => Numbered "#G" | H_I => Exactly "#I" | H_J => Numbered "#J" | H_j => Numbered "#j" | H_L => Exactly "#L"
  | H_M => Exactly "#M" | H_N => Exactly "#N" | H_O => Numbered "#O" | H_o => Numbered "#o" | H_P => Numbered "#P"
  | H_Q => Exactly "#Q" | H_R => Exactly "#R" | H_T => Exactly "#T" | H_U => Exactly "#U" | H_X => Exactly "#X"
  | H_data => Number | H_atMCA => Exactly "#@MCA" | H_atA => MaybeNumbered "@A" | H_CALIB => AnyCase "#@CALIB"
  | H_CHANN => Exactly "#@CHANN" | H_CTIME => Exactly "#@CTIME" | H_ROI => Exactly "#@ROI"
  | H_VA => Numbered "#VA" | H_VD => Numbered "#VD" | H_VE => Numbered "#VE" | H_XPCS => Exactly "#XPCS" | H_CCD => Exactly "#CCD"
  | H_MD => Named "#MD" | H_unrec => Exactly "unrecognized_control_line" | H_UIM => Named "#UIM"
  | H_H => Numbered "#H" | H_V => Numbered "#V" | H_UXML => Exactly "#UXML"
  end)%string.

(** a first word that belongs to the handler: one of this form, or the handler's own key *)
Definition belongs (h : hid) (w : str) : Prop := shaped (shape_of h) w \/ w = key_of h.

(** [control h line]: after leading white space the line has such a word and a blank *)
Definition control (h : hid) (line : str) : Prop :=
  exists a w rest, line = a ++ w ++ SP :: rest /\ blank a /\ ~ In SP w /\
    (exists c t, w = c :: t /\ is_space c = false) /\ belongs h w.
Definition no_control (line : str) : Prop := forall h, ~ control h line.
