(** Specification: texts that can be read back. *)
From Coq Require Import String.
From Verif Require Import M_Base M_Context M_Debug M_Show S_Text.
Local Open Scope Z_scope.

(** A letter, a digit or an underscore; not a digit at the start. *)
Definition ident_char (c : Z) : Prop := 65 <= c <= 90 \/ 97 <= c <= 122 \/ 48 <= c <= 57 \/ c = 95.
Definition ident (n : string) : Prop :=
  Forall ident_char (text n) /\ exists c r, text n = c :: r /\ ~ 48 <= c <= 57.

(** Texts of other libraries, such as dates: a digit or a sign, then letters, digits and [+-.:], not all digits. *)
Definition atom_char (c : Z) : Prop := ident_char c \/ In c (text "+-.:").
Definition atom (l : list Z) : Prop :=
  Forall atom_char l /\ exists c r, l = c :: r /\ (48 <= c <= 57 \/ In c (text "+-")) /\ ~ Forall (fun d => 48 <= d <= 57) r.

(** What Rust types can ask to be written: identifiers as names, texts as strings, and a name alone
    rather than a name with no fields. *)
Fixpoint well_formed (v : shown) : Prop :=
  match v with
  | SNum _ => True
  | SStr l => is_text l
  | SName n => ident n
  | SAtom l => atom l
  | STuple n l => ident n /\ l <> [] /\ fold_right (fun v P => well_formed v /\ P) True l
  | SList l => fold_right (fun v P => well_formed v /\ P) True l
  | SStruct n l => ident n /\ l <> [] /\ fold_right (fun (f : string * shown) P => (let (name, v) := f in ident name /\ well_formed v) /\ P) True l
  end.

(** What may follow a value inside a larger text: the end, a comma, or a closing bracket. *)
Definition ends (s : list Z) : Prop :=
  s = [] \/ (exists c r, s = c :: r /\ In c (text ",)]")) \/ (exists r, s = text " }" ++ r).

(** The text of a value tells which one it is, on one line or on several. *)
Definition tells {A : Type} (ok : A -> Prop) (show : A -> shown) : Prop :=
  forall u a b, ok a -> ok b ->
    (compact u (show a) = compact u (show b) -> a = b) /\ (pretty u (show a) = pretty u (show b) -> a = b).

(** A structure announced under its type's name. *)
Definition names_type (v : shown) (n : string) : Prop := exists l, v = SStruct n l.

(** Little CMS's error codes (cmsERROR_UNDEFINED and so on in lcms2.h), in the order of their numbers from 0. *)
Definition error_names : list string :=
  ["Undefined"; "File"; "Range"; "Internal"; "Null"; "Read"; "Seek"; "Write"; "UnknownExtension"; "ColorSpaceCheck";
   "AlreadyDefined"; "BadSignature"; "CorruptionDetected"; "NotSuitable"]%string.
