(** Model of /repo/src/state/** and /repo/src/plugins/plugin.rs. *)
From Coq Require Import String Ascii.
From Verif Require Import M_Base M_F64 M_Signature M_SigTables.

(** Rust strings are their UTF-8 bytes.
    Cf. /repo/src/state/context.rs:75,82-85,103. *)
Fixpoint text (s : string) : list Z :=
  match s with
  | EmptyString => []
  | String c r => Z.of_N (N_of_ascii c) :: text r
  end.

(** [{}] on an unsigned integer: decimal digits.
    Cf. /repo/src/state/context.rs:82-85, /repo/src/types/profile.rs:171. *)
Fixpoint dec_digits (u : Decimal.uint) : list Z :=
  match u with
  | Decimal.Nil => []
  | Decimal.D0 r => 48 :: dec_digits r
  | Decimal.D1 r => 49 :: dec_digits r
  | Decimal.D2 r => 50 :: dec_digits r
  | Decimal.D3 r => 51 :: dec_digits r
  | Decimal.D4 r => 52 :: dec_digits r
  | Decimal.D5 r => 53 :: dec_digits r
  | Decimal.D6 r => 54 :: dec_digits r
  | Decimal.D7 r => 55 :: dec_digits r
  | Decimal.D8 r => 56 :: dec_digits r
  | Decimal.D9 r => 57 :: dec_digits r
  end.
(** /repo/src/state/context.rs:82-85, /repo/src/types/profile.rs:171. *)
Definition decimal (n : Z) : list Z := dec_digits (N.to_uint (Z.to_N n)).

(** /repo/src/state/chunks/error_handler.rs:40-55 *)
Inductive ErrorCode :=
| EC_Undefined | EC_File | EC_Range | EC_Internal | EC_Null | EC_Read | EC_Seek | EC_Write
| EC_UnknownExtension | EC_ColorSpaceCheck | EC_AlreadyDefined | EC_BadSignature
| EC_CorruptionDetected | EC_NotSuitable.

(** /repo/src/plugins.rs etc.: callbacks are function pointers, here opaque identifiers. *)
Definition fnptr : Type := nat.

(** /repo/src/state/context.rs:24-38.  Boxes are values.  Plugin collections hold opaque items. *)
Record Context := mkCtx {
  c_user_data : option (list Z);
  c_error_handler : fnptr;
  c_alarm_codes : list Z;
  c_adaption_state : f64;
  c_interpolators : fnptr;
  c_curves : list fnptr;
  c_formatters : list fnptr;
  c_tag_types : list fnptr;
  c_tags : list fnptr;
  c_intents : list fnptr;
  c_mpe_types : list fnptr;
  c_optimizations : list fnptr;
  c_transforms : list fnptr
}.

(** error_handler.rs:21,34 [default_log_error_handler_function], the function pointer number 0. *)
Definition default_handler : fnptr := O.

(** interpolation.rs:16-22 [default_interpolatior_factory]. *)
Definition default_interp : fnptr := O.

(** alarm_codes.rs:14-22 *)
Definition default_alarm_codes : list Z :=
  [32512; 32512; 32512; 0; 0; 0; 0; 0; 0; 0; 0; 0; 0; 0; 0; 0].

(** context.rs:43-61 [Context::new]; chunk defaults: adaption_state.rs:12-18 (1.0), formatters.rs:14-18
    and the derived [Default]s of the other chunks (empty vectors). *)
Definition context_new (data : option (list Z)) : Context :=
  mkCtx data default_handler default_alarm_codes (f64_lit 1 0) default_interp
        [] [] [] [] [] [] [] [].

(** context.rs:114-116 *)
Definition get_user_data (c : Context) : option (list Z) := c_user_data c.

(** What the code hands to the outside world: the behaviour of every non-default handler function
    pointer, and std's quoting of a string under [{:?}]. *)
Record world := mkWorld {
  w_handler : fnptr -> Context -> ErrorCode -> list Z -> Context;
  w_str_debug : list Z -> list Z
}.

(** One invocation of the error handler.
    Cf. /repo/src/state/context.rs:118-121. *)
Definition event : Type := (ErrorCode * list Z)%type.

(** context.rs:118-121 [signal_error]: calls the handler stored in the context.  Handler 0 is
    [default_log_error_handler_function] (error_handler.rs:34-35), which does nothing. *)
Definition signal_error (w : world) (c : Context) (code : ErrorCode) (t : list Z) : Context * list event :=
  (match c_error_handler c with
   | O => c
   | S _ => w_handler w (c_error_handler c) c code t
   end, [(code, t)]).

(** /repo/src/plugins/plugin.rs:20-54; payload function pointers opaque. *)
Inductive PluginType :=
| PT_Interpolation (interpolation_factory : fnptr)
| PT_ParametricCurve (num_functions : Z) (function_types parameter_count : list Z) (evaluator : fnptr)
| PT_Formatter (formatters_factory : fnptr)
| PT_TagType (handler : fnptr)
| PT_Tag (signature : Signature) (descriptor : fnptr)
| PT_RenderingIntent (intent : Signature) (link : fnptr) (description : list Z)
| PT_MultiProcessElement (handler : fnptr)
| PT_Optimization (optimizer : fnptr)
| PT_Transform (factory : fnptr).

(** plugin.rs:61-127 [PluginType::is_*] *)
Definition is_interpolation (d : PluginType) : bool := match d with PT_Interpolation _ => true | _ => false end.
(** plugin.rs:69-71. *)
Definition is_parametric_curves (d : PluginType) : bool := match d with PT_ParametricCurve _ _ _ _ => true | _ => false end.
(** plugin.rs:77-79. *)
Definition is_formatter (d : PluginType) : bool := match d with PT_Formatter _ => true | _ => false end.
(** plugin.rs:85-87. *)
Definition is_tag_type (d : PluginType) : bool := match d with PT_TagType _ => true | _ => false end.
(** plugin.rs:93-95. *)
Definition is_tag (d : PluginType) : bool := match d with PT_Tag _ _ => true | _ => false end.
(** plugin.rs:101-103. *)
Definition is_rendering_intent (d : PluginType) : bool := match d with PT_RenderingIntent _ _ _ => true | _ => false end.
(** plugin.rs:109-111. *)
Definition is_multi_process_element (d : PluginType) : bool := match d with PT_MultiProcessElement _ => true | _ => false end.
(** plugin.rs:117-119. *)
Definition is_optimization (d : PluginType) : bool := match d with PT_Optimization _ => true | _ => false end.
(** plugin.rs:125-127. *)
Definition is_transform (d : PluginType) : bool := match d with PT_Transform _ => true | _ => false end.

(** plugin.rs:10-16.  [Arc<Plugin>] without interior mutability is an immutable, acyclic value. *)
Inductive Plugin :=
| mkPlugin (magic : Signature) (expected_version : Z) (type : Signature) (data : PluginType)
           (next : option Plugin).

(** /repo/src/lib.rs:51 *)
Definition LCMS_VERSION : Z := 2131.

(** context.rs:89-106: the accepted plugin types. *)
Definition known_plugin_type (t : Signature) : bool :=
  sig_eqb t PT_INTERPOLATION || sig_eqb t PT_TAG_TYPE || sig_eqb t PT_TAG || sig_eqb t PT_FORMATTERS
  || sig_eqb t PT_RENDERING_INTENT || sig_eqb t PT_PARAMETRIC_CURVE || sig_eqb t PT_MULTI_PROCESS_ELEMENT
  || sig_eqb t PT_OPTIMIZATION || sig_eqb t PT_TRANSFORM.

(** context.rs:75, 82-85, 103: the three messages.  [{:?}] of a [Signature] is
    [Signature { value: "..." }] with std's string quoting. *)
Definition msg_unrecognized : list Z := text "Unrecognized plugin".
(** context.rs:82-85. *)
Definition msg_version (v : Z) : list Z :=
  text "plugin needs Little CMS " ++ decimal v ++ text ", current version is " ++ decimal LCMS_VERSION.
(** context.rs:103. *)
Definition msg_type (w : world) (t : Signature) : list Z :=
  text "Unrecognized plugin type 'Signature { value: " ++ w_str_debug w (sig_debug_value t) ++ text " }'".

(** context.rs:21 [Result<()>] with a [String] error. *)
Inductive str_result := SOk | SErr (t : list Z).

(** context.rs:64-67: signal, then return the text as the error. *)
Definition fail_plugin (w : world) (c : Context) (t : list Z) : str_result * Context * list event :=
  let '(c', ev) := signal_error w c EC_UnknownExtension t in (SErr t, c', ev).

(** context.rs:63-112 [init_plugin]: [while plugin.next.is_some() { checks; plugin = next }]. *)
Fixpoint init_plugin (w : world) (c : Context) (p : Plugin) : str_result * Context * list event :=
  match p with
  | mkPlugin _ _ _ _ None => (SOk, c, [])
  | mkPlugin magic version type _ (Some next) =>
      if negb (sig_eqb magic PT_MAGIC) then fail_plugin w c msg_unrecognized
      else if LCMS_VERSION <? version then fail_plugin w c (msg_version version)
      else if known_plugin_type type then init_plugin w c next
      else fail_plugin w c (msg_type w type)
  end.
