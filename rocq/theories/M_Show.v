(** Model of the [Debug] texts written by [#[derive(Debug)]] and by hand in /repo/src/types,
    /repo/src/plugins, /repo/src/state/chunks and /repo/src/io: std's [debug_struct], [debug_tuple] and
    [debug_list] builders under [{:?}] and [{:#?}]. *)
From Coq Require Import String.
From Verif Require Import M_Base M_Signature M_Context M_Header M_Curve M_FileNull M_FileMem M_Debug.
Local Open Scope list_scope.
Local Open Scope Z_scope.

(** What a [Debug] implementation asks the formatter to write.  [SName] is a variant without fields,
    [true] or [false]; [SAtom] a text of its own, such as a date.  Cf. icc_header.rs:8, tag_entry.rs:6, para_curve.rs:18-30, transform.rs:56-63. *)
Inductive shown :=
| SNum (n : Z)
| SStr (l : list Z)
| SName (n : string)
| SAtom (l : list Z)
| STuple (n : string) (l : list shown)
| SList (l : list shown)
| SStruct (n : string) (l : list (string * shown)).

(** An integer under [{:?}], date_time_number.rs:4, encoded_xyz_number.rs:4. *)
Definition show_num (n : Z) : list Z := if n <? 0 then [45] ++ decimal (- n) else decimal n.
(** The [", "] between fields, [core::fmt::builders]; icc_header.rs:8. *)
Fixpoint join (l : list (list Z)) : list Z :=
  match l with
  | [] => []
  | [x] => x
  | x :: r => x ++ text ", " ++ join r
  end.
(** [{:?}]; icc_header.rs:8. *)
Fixpoint compact (u : unicode) (v : shown) : list Z :=
  match v with
  | SNum n => show_num n
  | SStr l => str_debug u l
  | SName n => text n
  | SAtom l => l
  | STuple n [] => text n
  | STuple n l => text n ++ text "(" ++ join (map (compact u) l) ++ text ")"
  | SList l => text "[" ++ join (map (compact u) l) ++ text "]"
  | SStruct n [] => text n
  | SStruct n l =>
      text n ++ text " { " ++ join (map (fun f : string * shown => let (name, v) := f in text name ++ text ": " ++ compact u v) l) ++ text " }"
  end.

(** [core::fmt::builders::PadAdapter]: four spaces at the start of every line; icc_header.rs:8. *)
Fixpoint pad_lines (start : bool) (l : list Z) : list Z :=
  match l with
  | [] => []
  | c :: r => (if start then text "    " else []) ++ c :: pad_lines (c =? 10) r
  end.
(** One field or entry under [{:#?}]: through a fresh adapter, with a comma; icc_header.rs:8. *)
Definition entry (l : list Z) : list Z := pad_lines true (l ++ text "," ++ [10]).
(** [{:#?}]; icc_header.rs:8. *)
Fixpoint pretty (u : unicode) (v : shown) : list Z :=
  match v with
  | SNum n => show_num n
  | SStr l => str_debug u l
  | SName n => text n
  | SAtom l => l
  | STuple n [] => text n
  | STuple n l => text n ++ text "(" ++ [10] ++ concat (map (fun v => entry (pretty u v)) l) ++ text ")"
  | SList [] => text "[]"
  | SList l => text "[" ++ [10] ++ concat (map (fun v => entry (pretty u v)) l) ++ text "]"
  | SStruct n [] => text n
  | SStruct n l =>
      text n ++ text " {" ++ [10] ++
      concat (map (fun f : string * shown => let (name, v) := f in entry (text name ++ text ": " ++ pretty u v)) l) ++ text "}"
  end.

(** signature.rs:12-28 *)
Definition show_sig (s : Signature) : shown := SStruct "Signature" [("value"%string, SStr (sig_debug_value s))].
(** profile_id.rs:10-21 *)
Definition show_id (p : ProfileID) : shown := SStruct "ProfileID" [("value"%string, SStr (profile_id_value p))].
(** date_time_number.rs:4-13 *)
Definition show_date (d : DateTimeNumber) : shown :=
  SStruct "DateTimeNumber"
    [("year"%string, SNum (dt_year d)); ("month"%string, SNum (dt_month d)); ("day"%string, SNum (dt_day d));
     ("hours"%string, SNum (dt_hours d)); ("minutes"%string, SNum (dt_minutes d)); ("seconds"%string, SNum (dt_seconds d))].
(** encoded_xyz_number.rs:4-10 *)
Definition show_xyz (x : EncodedXYZ) : shown :=
  SStruct "EncodedXYZNumber" [("x"%string, SNum (ex_x x)); ("y"%string, SNum (ex_y x)); ("z"%string, SNum (ex_z x))].
(** icc_header.rs:8-47 *)
Definition show_header (h : ICCHeader) : shown :=
  SStruct "ICCHeader"
    [("size"%string, SNum (h_size h)); ("cmm_id"%string, show_sig (h_cmm_id h)); ("version"%string, SNum (h_version h));
     ("device_class"%string, show_sig (h_device_class h)); ("color_space"%string, show_sig (h_color_space h));
     ("pcs"%string, show_sig (h_pcs h)); ("date"%string, show_date (h_date h)); ("magic"%string, show_sig (h_magic h));
     ("platform"%string, show_sig (h_platform h)); ("flags"%string, SNum (h_flags h));
     ("manufacturer"%string, show_sig (h_manufacturer h)); ("model"%string, SNum (h_model h));
     ("attributes"%string, SNum (h_attributes h)); ("rendering_intent"%string, SNum (h_rendering_intent h));
     ("illuminant"%string, show_xyz (h_illuminant h)); ("creator"%string, show_sig (h_creator h));
     ("profile_id"%string, show_id (h_profile_id h)); ("reserved"%string, SList (map SNum (h_reserved h)))].
(** tag_entry.rs:6-15 *)
Definition show_tag_entry (t : TagEntry) : shown :=
  SStruct "TagEntry" [("sig"%string, show_sig (t_sig t)); ("offset"%string, SNum (t_offset t)); ("size"%string, SNum (t_size t))].

(** "[Function Ptr]", a string literal: para_curve.rs:22, optimization.rs:17, transform.rs:59-60, intent.rs:29. *)
Definition fn_ptr : shown := SStr (text "[Function Ptr]").
(** para_curve.rs:26-30 *)
Definition show_curve (c : Curve) : shown :=
  SStruct "Curve" [("function_curve_id"%string, SNum (function_curve_id c)); ("parameter_count"%string, SNum (Z.of_nat (parameter_count c)))].
(** para_curve.rs:18-25; the evaluator does not matter. *)
Definition show_curves (l : list Curve) : shown :=
  SStruct "ParametricCurves" [("curves"%string, SList (map show_curve l)); ("evaluator"%string, fn_ptr)].
(** transform.rs:50-63: [Legacy] or [Modern]. *)
Definition show_factory (modern : bool) : shown := STuple (if modern then "Modern" else "Legacy") [fn_ptr].
(** tag.rs:14-29 *)
Definition show_descriptor (element_count : Z) (supported_types : list Signature) : shown :=
  SStruct "TagDescriptor"
    [("element_count"%string, SNum element_count); ("supported_types"%string, SList (map show_sig supported_types)); ("decide_type"%string, fn_ptr)].
(** tag.rs:8-12 *)
Definition show_tag_item (s : Signature) (element_count : Z) (supported_types : list Signature) : shown :=
  SStruct "TagListItem" [("signature"%string, show_sig s); ("descriptor"%string, show_descriptor element_count supported_types)].
(** tag_type.rs:23-40 *)
Definition show_type_handler (s : Signature) (icc_version : Z) : shown :=
  SStruct "TypeHandler"
    [("signature"%string, show_sig s); ("icc_version"%string, SNum icc_version); ("read"%string, fn_ptr); ("write"%string, fn_ptr)].
(** intent.rs:18-32 (the name is written without its first s) *)
Definition show_intent (s : Signature) (description : list Z) : shown :=
  SStruct "IntentListItem" [("intent"%string, show_sig s); ("description"%string, SStr description); ("link"%string, fn_ptr)].
(** optimization.rs:9-20 *)
Definition show_optimization : shown := SStruct "OptimizationCollectionItem" [("optimize_ptr"%string, fn_ptr)].
(** error_handler.rs:26-32 *)
Definition show_log_error_chunk : shown := SStruct "LogErrorChunk" [("handler"%string, SStr (text "[Function Pointer]"))].
(** interpolation.rs:24-30 *)
Definition show_interpolation_chunk : shown := SStruct "LogErrorChunk" [("handler"%string, SStr (text "[Function Pointer]"))].
(** alarm_codes.rs:3-6 *)
Definition show_alarm_codes (l : list Z) : shown := SStruct "AlarmCodesChunk" [("alarm_codes"%string, SList (map SNum l))].
(** file_null.rs:29-33 *)
Definition show_null (f : FileNull) : shown :=
  SStruct "FileNull" [("pointer"%string, SNum (pointer f)); ("used_space"%string, SNum (used_space f))].
(** file_mem.rs:38-45 and std's derived [Debug for Cursor]. *)
Definition show_mem (f : FileMem) : shown :=
  SStruct "FileMem"
    [("cursor"%string, SStruct "Cursor" [("inner"%string, SList (map SNum (mem_data f))); ("pos"%string, SNum (mem_pos f))])].
(** error_handler.rs:37-55 *)
Definition show_error (c : ErrorCode) : shown :=
  SName match c with
        | EC_Undefined => "Undefined" | EC_File => "File" | EC_Range => "Range" | EC_Internal => "Internal" | EC_Null => "Null"
        | EC_Read => "Read" | EC_Seek => "Seek" | EC_Write => "Write" | EC_UnknownExtension => "UnknownExtension"
        | EC_ColorSpaceCheck => "ColorSpaceCheck" | EC_AlreadyDefined => "AlreadyDefined" | EC_BadSignature => "BadSignature"
        | EC_CorruptionDetected => "CorruptionDetected" | EC_NotSuitable => "NotSuitable"
        end.

(** error_handler.rs:38-55: [#[repr(u32)]] with explicit numbers. *)
Definition error_number (c : ErrorCode) : Z :=
  match c with
  | EC_Undefined => 0 | EC_File => 1 | EC_Range => 2 | EC_Internal => 3 | EC_Null => 4 | EC_Read => 5 | EC_Seek => 6 | EC_Write => 7
  | EC_UnknownExtension => 8 | EC_ColorSpaceCheck => 9 | EC_AlreadyDefined => 10 | EC_BadSignature => 11 | EC_CorruptionDetected => 12
  | EC_NotSuitable => 13
  end.
(** error_handler.rs:37: the derived [Ord] compares the discriminants, the derived [PartialEq] too. *)
Definition error_cmp (a b : ErrorCode) : comparison := Z.compare (error_number a) (error_number b).
(** error_handler.rs:37 *)
Definition error_eqb (a b : ErrorCode) : bool := error_number a =? error_number b.
