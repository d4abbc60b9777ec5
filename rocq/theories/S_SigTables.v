(** Reference values: the C library's enumerators as they appear in /repo/tests/include/bindings.rs,
    keyed by the Rust constant meant to carry the same value (pairing follows the common order of both
    sources and was checked by name). *)
From Coq Require Import String ZArith List.
Import ListNotations.
Local Open Scope string_scope.
Local Open Scope Z_scope.

(** /repo/tests/include/bindings.rs:513-548 *)
Definition c_tag_type : list (string * string * Z) := [
  ("CHROMATICITY", "cmsSigChromaticityType", 1667789421);
  ("COLORANT_ORDER", "cmsSigColorantOrderType", 1668051567);
  ("COLORANT_TABLE", "cmsSigColorantTableType", 1668051572);
  ("CRD_INFO", "cmsSigCrdInfoType", 1668441193);
  ("CURVE", "cmsSigCurveType", 1668641398);
  ("DATA", "cmsSigDataType", 1684108385);
  ("DICT", "cmsSigDictType", 1684628340);
  ("DATE_TIME", "cmsSigDateTimeType", 1685350765);
  ("DEVICE_SETTINGS", "cmsSigDeviceSettingsType", 1684371059);
  ("LUT16", "cmsSigLut16Type", 1835430962);
  ("LUT8", "cmsSigLut8Type", 1835430961);
  ("LUTA_TO_B", "cmsSigLutAtoBType", 1832993312);
  ("LUTB_TO_A", "cmsSigLutBtoAType", 1833058592);
  ("MEASUREMENT", "cmsSigMeasurementType", 1835360627);
  ("MULTI_LOCALIZED_UNICODE", "cmsSigMultiLocalizedUnicodeType", 1835824483);
  ("MULTI_PROCESS_ELEMENT", "cmsSigMultiProcessElementType", 1836082548);
  ("NAMED_COLOR", "cmsSigNamedColorType", 1852010348);
  ("NAMED_COLOR2", "cmsSigNamedColor2Type", 1852009522);
  ("PARAMETRIC_CURVE", "cmsSigParametricCurveType", 1885434465);
  ("PROFILE_SEQUENCE_DESC", "cmsSigProfileSequenceDescType", 1886610801);
  ("PROFILE_SEQUENCE_ID", "cmsSigProfileSequenceIdType", 1886611812);
  ("RESPONSE_CURVE_SET16", "cmsSigResponseCurveSet16Type", 1919120178);
  ("S15_FIXED16_ARRAY", "cmsSigS15Fixed16ArrayType", 1936077618);
  ("SCREENING", "cmsSigScreeningType", 1935897198);
  ("SIGNATURE", "cmsSigSignatureType", 1936287520);
  ("TEXT", "cmsSigTextType", 1952807028);
  ("TEXT_DESCRIPTION", "cmsSigTextDescriptionType", 1684370275);
  ("U16_FIXED16_ARRAY", "cmsSigU16Fixed16ArrayType", 1969632050);
  ("UCR_BG", "cmsSigUcrBgType", 1650877472);
  ("UINT16_ARRAY", "cmsSigUInt16ArrayType", 1969828150);
  ("UINT32_ARRAY", "cmsSigUInt32ArrayType", 1969828658);
  ("UINT64_ARRAY", "cmsSigUInt64ArrayType", 1969829428);
  ("UINT8_ARRAY", "cmsSigUInt8ArrayType", 1969827896);
  ("VCGT", "cmsSigVcgtType", 1986226036);
  ("VIEWING_CONDITIONS", "cmsSigViewingConditionsType", 1986618743);
  ("XYZ", "cmsSigXYZType", 1482250784)
].

(** /repo/tests/include/bindings.rs:550-620 *)
Definition c_tag : list (string * string * Z) := [
  ("A_TO_B0", "cmsSigAToB0Tag", 1093812784);
  ("A_TO_B1", "cmsSigAToB1Tag", 1093812785);
  ("A_TO_B2", "cmsSigAToB2Tag", 1093812786);
  ("BLUE_COLORANT", "cmsSigBlueColorantTag", 1649957210);
  ("BLUE_MATRIX_COLUMN", "cmsSigBlueMatrixColumnTag", 1649957210);
  ("BLUE_TRC", "cmsSigBlueTRCTag", 1649693251);
  ("B_TO_A0", "cmsSigBToA0Tag", 1110589744);
  ("B_TO_A1", "cmsSigBToA1Tag", 1110589745);
  ("B_TO_A2", "cmsSigBToA2Tag", 1110589746);
  ("CALIBRATION_DATE_TIME", "cmsSigCalibrationDateTimeTag", 1667329140);
  ("CHAR_TARGET", "cmsSigCharTargetTag", 1952543335);
  ("CHROMATIC_ADAPTATION", "cmsSigChromaticAdaptationTag", 1667785060);
  ("CHROMATICITY", "cmsSigChromaticityTag", 1667789421);
  ("COLORANT_ORDER", "cmsSigColorantOrderTag", 1668051567);
  ("COLORANT_TABLE", "cmsSigColorantTableTag", 1668051572);
  ("COLORANT_TABLE_OUT", "cmsSigColorantTableOutTag", 1668050804);
  ("COLORIMETRIC_INTENT_IMAGE_STATE", "cmsSigColorimetricIntentImageStateTag", 1667852659);
  ("COPYRIGHT", "cmsSigCopyrightTag", 1668313716);
  ("CRD_INFO", "cmsSigCrdInfoTag", 1668441193);
  ("DATA", "cmsSigDataTag", 1684108385);
  ("DATE_TIME", "cmsSigDateTimeTag", 1685350765);
  ("DEVICE_MFG_DESC", "cmsSigDeviceMfgDescTag", 1684893284);
  ("DEVICE_MODEL_DESC", "cmsSigDeviceModelDescTag", 1684890724);
  ("DEVICE_SETTINGS", "cmsSigDeviceSettingsTag", 1684371059);
  ("D_TO_B0", "cmsSigDToB0Tag", 1144144432);
  ("D_TO_B1", "cmsSigDToB1Tag", 1144144433);
  ("D_TO_B2", "cmsSigDToB2Tag", 1144144434);
  ("D_TO_B3", "cmsSigDToB3Tag", 1144144435);
  ("B_TO_D0", "cmsSigBToD0Tag", 1110590512);
  ("B_TO_D1", "cmsSigBToD1Tag", 1110590513);
  ("B_TO_D2", "cmsSigBToD2Tag", 1110590514);
  ("B_TO_D3", "cmsSigBToD3Tag", 1110590515);
  ("GAMUT", "cmsSigGamutTag", 1734438260);
  ("GRAY_TRC", "cmsSigGrayTRCTag", 1800688195);
  ("GREEN_COLORANT", "cmsSigGreenColorantTag", 1733843290);
  ("GREEN_MATRIX_COLUMN", "cmsSigGreenMatrixColumnTag", 1733843290);
  ("GREEN_TRC", "cmsSigGreenTRCTag", 1733579331);
  ("LUMINANCE", "cmsSigLuminanceTag", 1819635049);
  ("MEASUREMENT", "cmsSigMeasurementTag", 1835360627);
  ("MEDIA_BLACK_POINT", "cmsSigMediaBlackPointTag", 1651208308);
  ("MEDIA_WHITE_POINT", "cmsSigMediaWhitePointTag", 2004119668);
  ("NAMED_COLOR", "cmsSigNamedColorTag", 1852010348);
  ("NAMED_COLOR2", "cmsSigNamedColor2Tag", 1852009522);
  ("OUTPUT_RESPONSE", "cmsSigOutputResponseTag", 1919251312);
  ("PERCEPTUAL_RENDERING_INTENT_GAMUT", "cmsSigPerceptualRenderingIntentGamutTag", 1919510320);
  ("PREVIEW0", "cmsSigPreview0Tag", 1886545200);
  ("PREVIEW1", "cmsSigPreview1Tag", 1886545201);
  ("PREVIEW2", "cmsSigPreview2Tag", 1886545202);
  ("PROFILE_DESCRIPTION", "cmsSigProfileDescriptionTag", 1684370275);
  ("PROFILE_DESCRIPTION_ML", "cmsSigProfileDescriptionMLTag", 1685283693);
  ("PROFILE_SEQUENCE_DESC", "cmsSigProfileSequenceDescTag", 1886610801);
  ("PROFILE_SEQUENCE_ID", "cmsSigProfileSequenceIdTag", 1886611812);
  ("PS2_CRD0", "cmsSigPs2CRD0Tag", 1886610480);
  ("PS2_CRD1", "cmsSigPs2CRD1Tag", 1886610481);
  ("PS2_CRD2", "cmsSigPs2CRD2Tag", 1886610482);
  ("PS2_CRD3", "cmsSigPs2CRD3Tag", 1886610483);
  ("PS2_CSA", "cmsSigPs2CSATag", 1886597747);
  ("PS2_RENDERING_INTENT", "cmsSigPs2RenderingIntentTag", 1886597737);
  ("RED_COLORANT", "cmsSigRedColorantTag", 1918392666);
  ("RED_MATRIX_COLUMN", "cmsSigRedMatrixColumnTag", 1918392666);
  ("RED_TRC", "cmsSigRedTRCTag", 1918128707);
  ("SATURATION_RENDERING_INTENT_GAMUT", "cmsSigSaturationRenderingIntentGamutTag", 1919510322);
  ("SCREENING_DESC", "cmsSigScreeningDescTag", 1935897188);
  ("SCREENING", "cmsSigScreeningTag", 1935897198);
  ("TECHNOLOGY", "cmsSigTechnologyTag", 1952801640);
  ("UCR_BG", "cmsSigUcrBgTag", 1650877472);
  ("VIEWING_COND_DESC", "cmsSigViewingCondDescTag", 1987405156);
  ("VIEWING_CONDITIONS", "cmsSigViewingConditionsTag", 1986618743);
  ("VCGT", "cmsSigVcgtTag", 1986226036);
  ("META", "cmsSigMetaTag", 1835365473);
  ("ARGYLL_ARTS", "cmsSigArgyllArtsTag", 1634890867)
].

(** /repo/tests/include/bindings.rs:622-652 *)
Definition c_technology : list (string * string * Z) := [
  ("DIGITAL_CAMERA", "cmsSigDigitalCamera", 1684234605);
  ("FILM_SCANNER", "cmsSigFilmScanner", 1718838126);
  ("REFLECTIVE_SCANNER", "cmsSigReflectiveScanner", 1920164718);
  ("INKJET_PRINTER", "cmsSigInkJetPrinter", 1768580468);
  ("THERMAL_WAX_PRINTER", "cmsSigThermalWaxPrinter", 1953980792);
  ("ELECTROPHOTOGRAPHIC_PRINTER", "cmsSigElectrophotographicPrinter", 1701865583);
  ("ELECTROSTATIC_PRINTER", "cmsSigElectrostaticPrinter", 1702065249);
  ("DYE_SUBLIMATION_PRINTER", "cmsSigDyeSublimationPrinter", 1685288290);
  ("PHOTOGRAPHIC_PAPER_PRINTER", "cmsSigPhotographicPaperPrinter", 1919969391);
  ("FILM_WRITER", "cmsSigFilmWriter", 1718645358);
  ("VIDEO_MONITOR", "cmsSigVideoMonitor", 1986618477);
  ("VIDEO_CAMERA", "cmsSigVideoCamera", 1986618467);
  ("PROJECTION_TELEVISION", "cmsSigProjectionTelevision", 1886024822);
  ("CRT_DISPLAY", "cmsSigCRTDisplay", 1129468960);
  ("PM_DISPLAY", "cmsSigPMDisplay", 1347240992);
  ("AM_DISPLAY", "cmsSigAMDisplay", 1095582752);
  ("PHOTO_CD", "cmsSigPhotoCD", 1263551300);
  ("PHOTO_IMAGE_SETTER", "cmsSigPhotoImageSetter", 1768777587);
  ("GRAVURE", "cmsSigGravure", 1735549302);
  ("OFFSET_LITHOGRAPHY", "cmsSigOffsetLithography", 1868981875);
  ("SILKSCREEN", "cmsSigSilkscreen", 1936288875);
  ("FLEXOGRAPHY", "cmsSigFlexography", 1718379896);
  ("MOTION_PICTURE_FILM_SCANNER", "cmsSigMotionPictureFilmScanner", 1836082803);
  ("MOTION_PICTURE_FILM_RECORDER", "cmsSigMotionPictureFilmRecorder", 1836082802);
  ("DIGITAL_MOTION_PICTURE_CAMERA", "cmsSigDigitalMotionPictureCamera", 1684893795);
  ("DIGITAL_CINEMA_PROJECTOR", "cmsSigDigitalCinemaProjector", 1684236912)
].

(** /repo/tests/include/bindings.rs:654-696 *)
Definition c_color_space : list (string * string * Z) := [
  ("XYZ", "cmsSigXYZData", 1482250784);
  ("LAB", "cmsSigLabData", 1281450528);
  ("LUV", "cmsSigLuvData", 1282766368);
  ("YCBCR", "cmsSigYCbCrData", 1497588338);
  ("YXY", "cmsSigYxyData", 1501067552);
  ("RGB", "cmsSigRgbData", 1380401696);
  ("GRAY", "cmsSigGrayData", 1196573017);
  ("HSV", "cmsSigHsvData", 1213421088);
  ("HLS", "cmsSigHlsData", 1212961568);
  ("CMYK", "cmsSigCmykData", 1129142603);
  ("CMY", "cmsSigCmyData", 1129142560);
  ("MCH1", "cmsSigMCH1Data", 1296255025);
  ("MCH2", "cmsSigMCH2Data", 1296255026);
  ("MCH3", "cmsSigMCH3Data", 1296255027);
  ("MCH4", "cmsSigMCH4Data", 1296255028);
  ("MCH5", "cmsSigMCH5Data", 1296255029);
  ("MCH6", "cmsSigMCH6Data", 1296255030);
  ("MCH7", "cmsSigMCH7Data", 1296255031);
  ("MCH8", "cmsSigMCH8Data", 1296255032);
  ("MCH9", "cmsSigMCH9Data", 1296255033);
  ("MCHA", "cmsSigMCHAData", 1296255041);
  ("MCHB", "cmsSigMCHBData", 1296255042);
  ("MCHC", "cmsSigMCHCData", 1296255043);
  ("MCHD", "cmsSigMCHDData", 1296255044);
  ("MCHE", "cmsSigMCHEData", 1296255045);
  ("MCHF", "cmsSigMCHFData", 1296255046);
  ("NAMED", "cmsSigNamedData", 1852662636);
  ("COLOR1", "cmsSig1colorData", 826494034);
  ("COLOR2", "cmsSig2colorData", 843271250);
  ("COLOR3", "cmsSig3colorData", 860048466);
  ("COLOR4", "cmsSig4colorData", 876825682);
  ("COLOR5", "cmsSig5colorData", 893602898);
  ("COLOR6", "cmsSig6colorData", 910380114);
  ("COLOR7", "cmsSig7colorData", 927157330);
  ("COLOR8", "cmsSig8colorData", 943934546);
  ("COLOR9", "cmsSig9colorData", 960711762);
  ("COLOR10", "cmsSig10colorData", 1094929490);
  ("COLOR11", "cmsSig11colorData", 1111706706);
  ("COLOR12", "cmsSig12colorData", 1128483922);
  ("COLOR13", "cmsSig13colorData", 1145261138);
  ("COLOR14", "cmsSig14colorData", 1162038354);
  ("COLOR15", "cmsSig15colorData", 1178815570);
  ("LUVK", "cmsSigLuvKData", 1282766411)
].

(** /repo/tests/include/bindings.rs:698-704 *)
Definition c_profile_class : list (string * string * Z) := [
  ("INPUT", "cmsSigInputClass", 1935896178);
  ("DISPLAY", "cmsSigDisplayClass", 1835955314);
  ("OUTPUT", "cmsSigOutputClass", 1886549106);
  ("LINK", "cmsSigLinkClass", 1818848875);
  ("ABSTRACT", "cmsSigAbstractClass", 1633842036);
  ("COLOR_SPACE", "cmsSigColorSpaceClass", 1936744803);
  ("NAMED_COLOR", "cmsSigNamedColorClass", 1852662636)
].

(** /repo/tests/include/bindings.rs:706-711 *)
Definition c_platform : list (string * string * Z) := [
  ("MACINTOSH", "cmsSigMacintosh", 1095782476);
  ("MICROSOFT", "cmsSigMicrosoft", 1297303124);
  ("SOLARIS", "cmsSigSolaris", 1398099543);
  ("SGI", "cmsSigSGI", 1397180704);
  ("TALIGENT", "cmsSigTaligent", 1413959252);
  ("UNICES", "cmsSigUnices", 711879032)
].

(** /repo/tests/include/bindings.rs:713-728 *)
Definition c_stage : list (string * string * Z) := [
  ("CURVE_SET_ELEM_TYPE", "cmsSigCurveSetElemType", 1668707188);
  ("MATRIX_ELEM_TYPE", "cmsSigMatrixElemType", 1835103334);
  ("C_LUT_ELEM_TYPE", "cmsSigCLutElemType", 1668052340);
  ("B_ACS_ELEM_TYPE", "cmsSigBAcsElemType", 1648444243);
  ("E_ACS_ELEM_TYPE", "cmsSigEAcsElemType", 1698775891);
  ("XYZ_TO_LAB_ELEM_TYPE", "cmsSigXYZ2LabElemType", 1815246880);
  ("LAB_TO_XYZ_ELEM_TYPE", "cmsSigLab2XYZElemType", 2016570400);
  ("NAMED_COLOR_ELEM_TYPE", "cmsSigNamedColorElemType", 1852009504);
  ("LAB_V2_TO_V4", "cmsSigLabV2toV4", 840971296);
  ("LAB_V4_TO_V2", "cmsSigLabV4toV2", 874525216);
  ("IDENTITY_ELEM_TYPE", "cmsSigIdentityElemType", 1768189472);
  ("LAB_TO_FLOAT_PCS", "cmsSigLab2FloatPCS", 1681026080);
  ("FLOAT_PCS_TO_LAB", "cmsSigFloatPCS2Lab", 1815241760);
  ("XYZ_TO_FLOAT_PCS", "cmsSigXYZ2FloatPCS", 1681029152);
  ("FLOAT_PCS_TO_XYZ", "cmsSigFloatPCS2XYZ", 2016568352);
  ("CLIP_NEGATIVES_ELEM_TYPE", "cmsSigClipNegativesElemType", 1668050976)
].

(** /repo/tests/include/bindings.rs:730-732 *)
Definition c_curve_segment : list (string * string * Z) := [
  ("FORMULA", "cmsSigFormulaCurveSeg", 1885434470);
  ("SAMPLED", "cmsSigSampledCurveSeg", 1935764838);
  ("SEGMENTED", "cmsSigSegmentedCurve", 1668641382)
].

(** The Rust name and the reference value. *)
Definition reference (c : list (string * string * Z)) : list (string * Z) := map (fun x => (fst (fst x), snd x)) c.

(** Names of one category share a value only if the pair is listed. *)
Definition alias_free (allowed : list (string * string)) (t : list (string * Z)) : Prop :=
  forall n1 n2 v, In (n1, v) t -> In (n2, v) t -> n1 = n2 \/ In (n1, n2) allowed \/ In (n2, n1) allowed.

(** Tag names the ICC specification gives twice. *)
Definition tag_aliases : list (string * string) :=
  [("RED_COLORANT", "RED_MATRIX_COLUMN"); ("GREEN_COLORANT", "GREEN_MATRIX_COLUMN"); ("BLUE_COLORANT", "BLUE_MATRIX_COLUMN")].
