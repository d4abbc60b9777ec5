(** Signature constant tables, transcribed mechanically from /repo/src/types/signatures.rs and
    /repo/src/types/signatures/*.rs (each entry: constant name, [Signature::new] of its four bytes). *)
From Coq Require Import String.
From Verif Require Import M_Base M_Signature.
Local Open Scope string_scope.

(** /repo/src/types/signatures/tag_type.rs:5-78 *)
Definition tbl_tag_type : list (string * Signature) := [
  ("CHROMATICITY", sig_new [99; 104; 114; 109]) (* chrm *);
  ("COLORANT_ORDER", sig_new [99; 108; 114; 111]) (* clro *);
  ("COLORANT_TABLE", sig_new [99; 108; 114; 116]) (* clrt *);
  ("CRD_INFO", sig_new [99; 114; 100; 105]) (* crdi *);
  ("CURVE", sig_new [99; 117; 114; 118]) (* curv *);
  ("DATA", sig_new [100; 97; 116; 97]) (* data *);
  ("DICT", sig_new [100; 105; 99; 116]) (* dict *);
  ("DATE_TIME", sig_new [100; 116; 105; 109]) (* dtim *);
  ("DEVICE_SETTINGS", sig_new [100; 101; 118; 115]) (* devs *);
  ("LUT16", sig_new [109; 102; 116; 50]) (* mft2 *);
  ("LUT8", sig_new [109; 102; 116; 49]) (* mft1 *);
  ("LUTA_TO_B", sig_new [109; 65; 66; 32]) (* mAB  *);
  ("LUTB_TO_A", sig_new [109; 66; 65; 32]) (* mBA  *);
  ("MEASUREMENT", sig_new [109; 101; 97; 115]) (* meas *);
  ("MULTI_LOCALIZED_UNICODE", sig_new [109; 108; 117; 99]) (* mluc *);
  ("MULTI_PROCESS_ELEMENT", sig_new [109; 112; 101; 116]) (* mpet *);
  ("NAMED_COLOR", sig_new [110; 99; 111; 108]) (* ncol *);
  ("NAMED_COLOR2", sig_new [110; 99; 108; 50]) (* ncl2 *);
  ("PARAMETRIC_CURVE", sig_new [112; 97; 114; 97]) (* para *);
  ("PROFILE_SEQUENCE_DESC", sig_new [112; 115; 101; 113]) (* pseq *);
  ("PROFILE_SEQUENCE_ID", sig_new [112; 115; 105; 100]) (* psid *);
  ("RESPONSE_CURVE_SET16", sig_new [114; 99; 115; 50]) (* rcs2 *);
  ("S15_FIXED16_ARRAY", sig_new [115; 102; 51; 50]) (* sf32 *);
  ("SCREENING", sig_new [115; 99; 114; 110]) (* scrn *);
  ("SIGNATURE", sig_new [115; 105; 103; 32]) (* sig  *);
  ("TEXT", sig_new [116; 101; 120; 116]) (* text *);
  ("TEXT_DESCRIPTION", sig_new [100; 101; 115; 99]) (* desc *);
  ("U16_FIXED16_ARRAY", sig_new [117; 102; 51; 50]) (* uf32 *);
  ("UCR_BG", sig_new [98; 102; 100; 32]) (* bfd  *);
  ("UINT16_ARRAY", sig_new [117; 105; 49; 54]) (* ui16 *);
  ("UINT32_ARRAY", sig_new [117; 105; 51; 50]) (* ui32 *);
  ("UINT64_ARRAY", sig_new [117; 105; 54; 52]) (* ui64 *);
  ("UINT8_ARRAY", sig_new [117; 105; 48; 56]) (* ui08 *);
  ("VCGT", sig_new [118; 99; 103; 116]) (* vcgt *);
  ("VIEWING_CONDITIONS", sig_new [118; 105; 101; 119]) (* view *);
  ("XYZ", sig_new [88; 89; 90; 32]) (* XYZ  *)
].

(** /repo/src/types/signatures/tag.rs:3-73 *)
Definition tbl_tag : list (string * Signature) := [
  ("A_TO_B0", sig_new [65; 50; 66; 48]) (* A2B0 *);
  ("A_TO_B1", sig_new [65; 50; 66; 49]) (* A2B1 *);
  ("A_TO_B2", sig_new [65; 50; 66; 50]) (* A2B2 *);
  ("BLUE_COLORANT", sig_new [98; 88; 89; 90]) (* bXYZ *);
  ("BLUE_MATRIX_COLUMN", sig_new [98; 88; 89; 90]) (* bXYZ *);
  ("BLUE_TRC", sig_new [98; 84; 82; 67]) (* bTRC *);
  ("B_TO_A0", sig_new [66; 50; 65; 48]) (* B2A0 *);
  ("B_TO_A1", sig_new [66; 50; 65; 49]) (* B2A1 *);
  ("B_TO_A2", sig_new [66; 50; 65; 50]) (* B2A2 *);
  ("CALIBRATION_DATE_TIME", sig_new [99; 97; 108; 116]) (* calt *);
  ("CHAR_TARGET", sig_new [116; 97; 114; 103]) (* targ *);
  ("CHROMATIC_ADAPTATION", sig_new [99; 104; 97; 100]) (* chad *);
  ("CHROMATICITY", sig_new [99; 104; 114; 109]) (* chrm *);
  ("COLORANT_ORDER", sig_new [99; 108; 114; 111]) (* clro *);
  ("COLORANT_TABLE", sig_new [99; 108; 114; 116]) (* clrt *);
  ("COLORANT_TABLE_OUT", sig_new [99; 108; 111; 116]) (* clot *);
  ("COLORIMETRIC_INTENT_IMAGE_STATE", sig_new [99; 105; 105; 115]) (* ciis *);
  ("COPYRIGHT", sig_new [99; 112; 114; 116]) (* cprt *);
  ("CRD_INFO", sig_new [99; 114; 100; 105]) (* crdi *);
  ("DATA", sig_new [100; 97; 116; 97]) (* data *);
  ("DATE_TIME", sig_new [100; 116; 105; 109]) (* dtim *);
  ("DEVICE_MFG_DESC", sig_new [100; 109; 110; 100]) (* dmnd *);
  ("DEVICE_MODEL_DESC", sig_new [100; 109; 100; 100]) (* dmdd *);
  ("DEVICE_SETTINGS", sig_new [100; 101; 118; 115]) (* devs *);
  ("D_TO_B0", sig_new [68; 50; 66; 48]) (* D2B0 *);
  ("D_TO_B1", sig_new [68; 50; 66; 49]) (* D2B1 *);
  ("D_TO_B2", sig_new [68; 50; 66; 50]) (* D2B2 *);
  ("D_TO_B3", sig_new [68; 50; 66; 51]) (* D2B3 *);
  ("B_TO_D0", sig_new [66; 50; 68; 48]) (* B2D0 *);
  ("B_TO_D1", sig_new [66; 50; 68; 49]) (* B2D1 *);
  ("B_TO_D2", sig_new [66; 50; 68; 50]) (* B2D2 *);
  ("B_TO_D3", sig_new [66; 50; 68; 51]) (* B2D3 *);
  ("GAMUT", sig_new [103; 97; 109; 116]) (* gamt *);
  ("GRAY_TRC", sig_new [107; 84; 82; 67]) (* kTRC *);
  ("GREEN_COLORANT", sig_new [103; 88; 89; 90]) (* gXYZ *);
  ("GREEN_MATRIX_COLUMN", sig_new [103; 88; 89; 90]) (* gXYZ *);
  ("GREEN_TRC", sig_new [103; 84; 82; 67]) (* gTRC *);
  ("LUMINANCE", sig_new [108; 117; 109; 105]) (* lumi *);
  ("MEASUREMENT", sig_new [109; 101; 97; 115]) (* meas *);
  ("MEDIA_BLACK_POINT", sig_new [98; 107; 112; 116]) (* bkpt *);
  ("MEDIA_WHITE_POINT", sig_new [119; 116; 112; 116]) (* wtpt *);
  ("NAMED_COLOR", sig_new [110; 99; 111; 108]) (* ncol *);
  ("NAMED_COLOR2", sig_new [110; 99; 108; 50]) (* ncl2 *);
  ("OUTPUT_RESPONSE", sig_new [114; 101; 115; 112]) (* resp *);
  ("PERCEPTUAL_RENDERING_INTENT_GAMUT", sig_new [114; 105; 103; 48]) (* rig0 *);
  ("PREVIEW0", sig_new [112; 114; 101; 48]) (* pre0 *);
  ("PREVIEW1", sig_new [112; 114; 101; 49]) (* pre1 *);
  ("PREVIEW2", sig_new [112; 114; 101; 50]) (* pre2 *);
  ("PROFILE_DESCRIPTION", sig_new [100; 101; 115; 99]) (* desc *);
  ("PROFILE_DESCRIPTION_ML", sig_new [100; 115; 99; 109]) (* dscm *);
  ("PROFILE_SEQUENCE_DESC", sig_new [112; 115; 101; 113]) (* pseq *);
  ("PROFILE_SEQUENCE_ID", sig_new [112; 115; 105; 100]) (* psid *);
  ("PS2_CRD0", sig_new [112; 115; 100; 48]) (* psd0 *);
  ("PS2_CRD1", sig_new [112; 115; 100; 49]) (* psd1 *);
  ("PS2_CRD2", sig_new [112; 115; 100; 50]) (* psd2 *);
  ("PS2_CRD3", sig_new [112; 115; 100; 51]) (* psd3 *);
  ("PS2_CSA", sig_new [112; 115; 50; 115]) (* ps2s *);
  ("PS2_RENDERING_INTENT", sig_new [112; 115; 50; 105]) (* ps2i *);
  ("RED_COLORANT", sig_new [114; 88; 89; 90]) (* rXYZ *);
  ("RED_MATRIX_COLUMN", sig_new [114; 88; 89; 90]) (* rXYZ *);
  ("RED_TRC", sig_new [114; 84; 82; 67]) (* rTRC *);
  ("SATURATION_RENDERING_INTENT_GAMUT", sig_new [114; 105; 103; 50]) (* rig2 *);
  ("SCREENING_DESC", sig_new [115; 99; 114; 100]) (* scrd *);
  ("SCREENING", sig_new [115; 99; 114; 110]) (* scrn *);
  ("TECHNOLOGY", sig_new [116; 101; 99; 104]) (* tech *);
  ("UCR_BG", sig_new [98; 102; 100; 32]) (* bfd  *);
  ("VIEWING_COND_DESC", sig_new [118; 117; 101; 100]) (* vued *);
  ("VIEWING_CONDITIONS", sig_new [118; 105; 101; 119]) (* view *);
  ("VCGT", sig_new [118; 99; 103; 116]) (* vcgt *);
  ("META", sig_new [109; 101; 116; 97]) (* meta *);
  ("ARGYLL_ARTS", sig_new [97; 114; 116; 115]) (* arts *)
].

(** /repo/src/types/signatures/technology.rs:3-28 *)
Definition tbl_technology : list (string * Signature) := [
  ("DIGITAL_CAMERA", sig_new [100; 99; 97; 109]) (* dcam *);
  ("FILM_SCANNER", sig_new [102; 115; 99; 110]) (* fscn *);
  ("REFLECTIVE_SCANNER", sig_new [114; 115; 99; 110]) (* rscn *);
  ("INKJET_PRINTER", sig_new [105; 106; 101; 116]) (* ijet *);
  ("THERMAL_WAX_PRINTER", sig_new [116; 119; 97; 120]) (* twax *);
  ("ELECTROPHOTOGRAPHIC_PRINTER", sig_new [101; 112; 104; 111]) (* epho *);
  ("ELECTROSTATIC_PRINTER", sig_new [101; 115; 116; 97]) (* esta *);
  ("DYE_SUBLIMATION_PRINTER", sig_new [100; 115; 117; 98]) (* dsub *);
  ("PHOTOGRAPHIC_PAPER_PRINTER", sig_new [114; 112; 104; 111]) (* rpho *);
  ("FILM_WRITER", sig_new [102; 112; 114; 110]) (* fprn *);
  ("VIDEO_MONITOR", sig_new [118; 105; 100; 109]) (* vidm *);
  ("VIDEO_CAMERA", sig_new [118; 105; 100; 99]) (* vidc *);
  ("PROJECTION_TELEVISION", sig_new [112; 106; 116; 118]) (* pjtv *);
  ("CRT_DISPLAY", sig_new [67; 82; 84; 32]) (* CRT  *);
  ("PM_DISPLAY", sig_new [80; 77; 68; 32]) (* PMD  *);
  ("AM_DISPLAY", sig_new [65; 77; 68; 32]) (* AMD  *);
  ("PHOTO_CD", sig_new [75; 80; 67; 68]) (* KPCD *);
  ("PHOTO_IMAGE_SETTER", sig_new [105; 109; 103; 115]) (* imgs *);
  ("GRAVURE", sig_new [103; 114; 97; 118]) (* grav *);
  ("OFFSET_LITHOGRAPHY", sig_new [111; 102; 102; 115]) (* offs *);
  ("SILKSCREEN", sig_new [115; 105; 108; 107]) (* silk *);
  ("FLEXOGRAPHY", sig_new [102; 108; 101; 120]) (* flex *);
  ("MOTION_PICTURE_FILM_SCANNER", sig_new [109; 112; 102; 115]) (* mpfs *);
  ("MOTION_PICTURE_FILM_RECORDER", sig_new [109; 112; 102; 114]) (* mpfr *);
  ("DIGITAL_MOTION_PICTURE_CAMERA", sig_new [100; 109; 112; 99]) (* dmpc *);
  ("DIGITAL_CINEMA_PROJECTOR", sig_new [100; 99; 112; 106]) (* dcpj *)
].

(** /repo/src/types/signatures/color_space.rs:3-45 *)
Definition tbl_color_space : list (string * Signature) := [
  ("XYZ", sig_new [88; 89; 90; 32]) (* XYZ  *);
  ("LAB", sig_new [76; 97; 98; 32]) (* Lab  *);
  ("LUV", sig_new [76; 117; 118; 32]) (* Luv  *);
  ("YCBCR", sig_new [89; 67; 98; 114]) (* YCbr *);
  ("YXY", sig_new [89; 120; 121; 32]) (* Yxy  *);
  ("RGB", sig_new [82; 71; 66; 32]) (* RGB  *);
  ("GRAY", sig_new [71; 82; 65; 89]) (* GRAY *);
  ("HSV", sig_new [72; 83; 86; 32]) (* HSV  *);
  ("HLS", sig_new [72; 76; 83; 32]) (* HLS  *);
  ("CMYK", sig_new [67; 77; 89; 75]) (* CMYK *);
  ("CMY", sig_new [67; 77; 89; 32]) (* CMY  *);
  ("MCH1", sig_new [77; 67; 72; 49]) (* MCH1 *);
  ("MCH2", sig_new [77; 67; 72; 50]) (* MCH2 *);
  ("MCH3", sig_new [77; 67; 72; 51]) (* MCH3 *);
  ("MCH4", sig_new [77; 67; 72; 52]) (* MCH4 *);
  ("MCH5", sig_new [77; 67; 72; 53]) (* MCH5 *);
  ("MCH6", sig_new [77; 67; 72; 54]) (* MCH6 *);
  ("MCH7", sig_new [77; 67; 72; 55]) (* MCH7 *);
  ("MCH8", sig_new [77; 67; 72; 56]) (* MCH8 *);
  ("MCH9", sig_new [77; 67; 72; 57]) (* MCH9 *);
  ("MCHA", sig_new [77; 67; 72; 65]) (* MCHA *);
  ("MCHB", sig_new [77; 67; 72; 66]) (* MCHB *);
  ("MCHC", sig_new [77; 67; 72; 67]) (* MCHC *);
  ("MCHD", sig_new [77; 67; 72; 68]) (* MCHD *);
  ("MCHE", sig_new [77; 67; 72; 69]) (* MCHE *);
  ("MCHF", sig_new [77; 67; 72; 70]) (* MCHF *);
  ("NAMED", sig_new [110; 109; 99; 108]) (* nmcl *);
  ("COLOR1", sig_new [49; 67; 76; 82]) (* 1CLR *);
  ("COLOR2", sig_new [50; 67; 76; 82]) (* 2CLR *);
  ("COLOR3", sig_new [51; 67; 76; 82]) (* 3CLR *);
  ("COLOR4", sig_new [52; 67; 76; 82]) (* 4CLR *);
  ("COLOR5", sig_new [53; 67; 76; 82]) (* 5CLR *);
  ("COLOR6", sig_new [54; 67; 76; 82]) (* 6CLR *);
  ("COLOR7", sig_new [55; 67; 76; 82]) (* 7CLR *);
  ("COLOR8", sig_new [56; 67; 76; 82]) (* 8CLR *);
  ("COLOR9", sig_new [57; 67; 76; 82]) (* 9CLR *);
  ("COLOR10", sig_new [65; 67; 76; 82]) (* ACLR *);
  ("COLOR11", sig_new [66; 67; 76; 82]) (* BCLR *);
  ("COLOR12", sig_new [67; 67; 76; 82]) (* CCLR *);
  ("COLOR13", sig_new [68; 67; 76; 82]) (* DCLR *);
  ("COLOR14", sig_new [69; 67; 76; 82]) (* ECLR *);
  ("COLOR15", sig_new [70; 67; 76; 82]) (* FCLR *);
  ("LUVK", sig_new [76; 117; 118; 75]) (* LuvK *)
].

(** /repo/src/types/signatures/profile_class.rs:3-9 *)
Definition tbl_profile_class : list (string * Signature) := [
  ("INPUT", sig_new [115; 99; 110; 114]) (* scnr *);
  ("DISPLAY", sig_new [109; 110; 116; 114]) (* mntr *);
  ("OUTPUT", sig_new [112; 114; 116; 114]) (* prtr *);
  ("LINK", sig_new [108; 105; 110; 107]) (* link *);
  ("ABSTRACT", sig_new [97; 98; 115; 116]) (* abst *);
  ("COLOR_SPACE", sig_new [115; 112; 97; 99]) (* spac *);
  ("NAMED_COLOR", sig_new [110; 109; 99; 108]) (* nmcl *)
].

(** /repo/src/types/signatures/platform.rs:3-8 *)
Definition tbl_platform : list (string * Signature) := [
  ("MACINTOSH", sig_new [65; 80; 80; 76]) (* APPL *);
  ("MICROSOFT", sig_new [77; 83; 70; 84]) (* MSFT *);
  ("SOLARIS", sig_new [83; 85; 78; 87]) (* SUNW *);
  ("SGI", sig_new [83; 71; 73; 32]) (* SGI  *);
  ("TALIGENT", sig_new [84; 71; 78; 84]) (* TGNT *);
  ("UNICES", sig_new [42; 110; 105; 120]) (* * nix *)
].

(** /repo/src/types/signatures/stage.rs:3-25 *)
Definition tbl_stage : list (string * Signature) := [
  ("CURVE_SET_ELEM_TYPE", sig_new [99; 118; 115; 116]) (* cvst *);
  ("MATRIX_ELEM_TYPE", sig_new [109; 97; 116; 102]) (* matf *);
  ("C_LUT_ELEM_TYPE", sig_new [99; 108; 117; 116]) (* clut *);
  ("B_ACS_ELEM_TYPE", sig_new [98; 65; 67; 83]) (* bACS *);
  ("E_ACS_ELEM_TYPE", sig_new [101; 65; 67; 83]) (* eACS *);
  ("XYZ_TO_LAB_ELEM_TYPE", sig_new [108; 50; 120; 32]) (* l2x  *);
  ("LAB_TO_XYZ_ELEM_TYPE", sig_new [120; 50; 108; 32]) (* x2l  *);
  ("NAMED_COLOR_ELEM_TYPE", sig_new [110; 99; 108; 32]) (* ncl  *);
  ("LAB_V2_TO_V4", sig_new [50; 32; 52; 32]) (* 2 4  *);
  ("LAB_V4_TO_V2", sig_new [52; 32; 50; 32]) (* 4 2  *);
  ("IDENTITY_ELEM_TYPE", sig_new [105; 100; 110; 32]) (* idn  *);
  ("LAB_TO_FLOAT_PCS", sig_new [100; 50; 108; 32]) (* d2l  *);
  ("FLOAT_PCS_TO_LAB", sig_new [108; 50; 100; 32]) (* l2d  *);
  ("XYZ_TO_FLOAT_PCS", sig_new [100; 50; 120; 32]) (* d2x  *);
  ("FLOAT_PCS_TO_XYZ", sig_new [120; 50; 100; 32]) (* x2d  *);
  ("CLIP_NEGATIVES_ELEM_TYPE", sig_new [99; 108; 112; 32]) (* clp  *)
].

(** /repo/src/types/signatures.rs:29-31 *)
Definition tbl_curve_segment : list (string * Signature) := [
  ("FORMULA", sig_new [112; 97; 114; 102]) (* parf *);
  ("SAMPLED", sig_new [115; 97; 109; 102]) (* samf *);
  ("SEGMENTED", sig_new [99; 117; 114; 102]) (* curf *)
].

(** /repo/src/types/signatures.rs *)
Definition tbl_misc : list (string * Signature) := [
  ("MAGIC_NUMBER", sig_new [97; 99; 115; 112]) (* acsp *);
  ("LCMS_SIGNATURE", sig_new [108; 99; 109; 115]) (* lcms *);
  ("PERCEPTUAL_REFERENCE_MEDIUM_GAMUT", sig_new [112; 114; 109; 103]) (* prmg *);
  ("SCENE_COLORIMETRY_ESTIMATES", sig_new [115; 99; 111; 101]) (* scoe *);
  ("SCENE_APPEARANCE_ESTIMATES", sig_new [115; 97; 112; 101]) (* sape *);
  ("FOCAL_PLANE_COLORIMETRY_ESTIMATES", sig_new [102; 112; 99; 101]) (* fpce *);
  ("REFLECTION_HARDCOPY_ORIGINAL_COLORIMETRY", sig_new [114; 104; 111; 99]) (* rhoc *);
  ("REFLECTION_PRINT_OUTPUT_COLORIMETRY", sig_new [114; 112; 111; 99]) (* rpoc *);
  ("STATUS_A", sig_new [83; 116; 97; 65]) (* StaA *);
  ("STATUS_E", sig_new [83; 116; 97; 69]) (* StaE *);
  ("STATUS_I", sig_new [83; 116; 97; 73]) (* StaI *);
  ("STATUS_T", sig_new [83; 116; 97; 84]) (* StaT *);
  ("STATUS_M", sig_new [83; 116; 97; 77]) (* StaM *);
  ("DN", sig_new [68; 78; 32; 32]) (* DN   *);
  ("DNP", sig_new [68; 78; 32; 80]) (* DN P *);
  ("DNN", sig_new [68; 78; 78; 32]) (* DNN  *);
  ("DNNP", sig_new [68; 78; 78; 80]) (* DNNP *)
].

(** /repo/src/types/signatures/plugin_type.rs:3-12 *)
Definition tbl_plugin_type : list (string * Signature) := [
  ("MAGIC", sig_new [97; 99; 112; 112]) (* acpp *);
  ("TRANSFORM", sig_new [120; 102; 109; 72]) (* xfmH *);
  ("INTERPOLATION", sig_new [105; 110; 112; 72]) (* inpH *);
  ("TAG_TYPE", sig_new [116; 121; 112; 72]) (* typH *);
  ("TAG", sig_new [116; 97; 103; 72]) (* tagH *);
  ("FORMATTERS", sig_new [102; 114; 109; 72]) (* frmH *);
  ("RENDERING_INTENT", sig_new [105; 110; 116; 72]) (* intH *);
  ("PARAMETRIC_CURVE", sig_new [112; 97; 114; 72]) (* parH *);
  ("MULTI_PROCESS_ELEMENT", sig_new [109; 112; 101; 72]) (* mpeH *);
  ("OPTIMIZATION", sig_new [111; 112; 116; 72]) (* optH *)
].

(** /repo/src/types/signatures/plugin_type.rs:3 *)
Definition PT_MAGIC : Signature := sig_new [97; 99; 112; 112].
(** /repo/src/types/signatures/plugin_type.rs:4 *)
Definition PT_TRANSFORM : Signature := sig_new [120; 102; 109; 72].
(** /repo/src/types/signatures/plugin_type.rs:5 *)
Definition PT_INTERPOLATION : Signature := sig_new [105; 110; 112; 72].
(** /repo/src/types/signatures/plugin_type.rs:6 *)
Definition PT_TAG_TYPE : Signature := sig_new [116; 121; 112; 72].
(** /repo/src/types/signatures/plugin_type.rs:7 *)
Definition PT_TAG : Signature := sig_new [116; 97; 103; 72].
(** /repo/src/types/signatures/plugin_type.rs:8 *)
Definition PT_FORMATTERS : Signature := sig_new [102; 114; 109; 72].
(** /repo/src/types/signatures/plugin_type.rs:9 *)
Definition PT_RENDERING_INTENT : Signature := sig_new [105; 110; 116; 72].
(** /repo/src/types/signatures/plugin_type.rs:10 *)
Definition PT_PARAMETRIC_CURVE : Signature := sig_new [112; 97; 114; 72].
(** /repo/src/types/signatures/plugin_type.rs:11 *)
Definition PT_MULTI_PROCESS_ELEMENT : Signature := sig_new [109; 112; 101; 72].
(** /repo/src/types/signatures/plugin_type.rs:12 *)
Definition PT_OPTIMIZATION : Signature := sig_new [111; 112; 116; 72].

(** /repo/src/types/signatures.rs:6 [MAGIC_NUMBER] (acsp) *)
Definition MAGIC_NUMBER : Signature := sig_new [97; 99; 115; 112].
