(** Reference values of the constants that are macros in the C library and so do not appear in
    /repo/tests/include/bindings.rs: the four letters by which ICC.1, lcms2.h and lcms2_plugin.h name them. *)
From Coq Require Import String Ascii ZArith List.
Import ListNotations.
Local Open Scope string_scope.
Local Open Scope Z_scope.

(** A four-letter code read as a big-endian number. *)
Fixpoint fourcc_from (acc : Z) (s : string) : Z :=
  match s with
  | EmptyString => acc
  | String c r => fourcc_from (256 * acc + Z.of_N (N_of_ascii c)) r
  end.
Definition fourcc (s : string) : Z := fourcc_from 0 s.

Definition named_misc : list (string * string) := [
  ("MAGIC_NUMBER", "acsp"); ("LCMS_SIGNATURE", "lcms");
  ("PERCEPTUAL_REFERENCE_MEDIUM_GAMUT", "prmg");
  ("SCENE_COLORIMETRY_ESTIMATES", "scoe"); ("SCENE_APPEARANCE_ESTIMATES", "sape");
  ("FOCAL_PLANE_COLORIMETRY_ESTIMATES", "fpce");
  ("REFLECTION_HARDCOPY_ORIGINAL_COLORIMETRY", "rhoc"); ("REFLECTION_PRINT_OUTPUT_COLORIMETRY", "rpoc");
  ("STATUS_A", "StaA"); ("STATUS_E", "StaE"); ("STATUS_I", "StaI"); ("STATUS_T", "StaT"); ("STATUS_M", "StaM");
  ("DN", "DN  "); ("DNP", "DN P"); ("DNN", "DNN "); ("DNNP", "DNNP")].
Definition named_plugin_type : list (string * string) := [
  ("MAGIC", "acpp"); ("TRANSFORM", "xfmH"); ("INTERPOLATION", "inpH"); ("TAG_TYPE", "typH"); ("TAG", "tagH");
  ("FORMATTERS", "frmH"); ("RENDERING_INTENT", "intH"); ("PARAMETRIC_CURVE", "parH");
  ("MULTI_PROCESS_ELEMENT", "mpeH"); ("OPTIMIZATION", "optH")].
Definition by_name (t : list (string * string)) : list (string * Z) := map (fun x => (fst x, fourcc (snd x))) t.
