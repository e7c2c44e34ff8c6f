(** Model of the texts the library gives for error classes, error codes, units,
    segmentation support and network layer messages (the generated String methods),
    and of the error text a caller gets for an Error PDU.  No proofs in this file. *)
From Coq Require Import String.
From Verif Require Export ModelNet.
Close Scope string_scope.
Open Scope list_scope.
Open Scope Z_scope.

(** Go's l[i] and s[a:b]; out of range is a panic *)
Definition go_index (l : list Z) (i : Z) : res Z :=
  if (0 <=? i) && (i <? zlen l) then ROk (nth (Z.to_nat i) l 0) else RPanic.
Definition go_slice (s : text) (a b : Z) : res text :=
  if (0 <=? a) && (a <=? b) && (b <=? zlen s) then ROk (firstn (Z.to_nat (b - a)) (skipn (Z.to_nat a) s)) else RPanic.
(** _name[_index[i]:_index[i+1]] *)
Definition piece (name : text) (index : list Z) (i : Z) : res text :=
  rbind (go_index index i) (fun a => rbind (go_index index (i + 1)) (fun b => go_slice name a b)).

(** btypes/bacerr/errorclass_string.go:21 *)
Definition class_name : text := txt "DeviceErrorObjectErrorPropertyErrorResourcesErrorSecurityErrorServicesErrorVTErrorCommunicationError"%string.
(** btypes/bacerr/errorclass_string.go:23 *)
Definition class_index : list Z :=
  [0; 11; 22; 35; 49; 62; 75; 82; 100].
(** btypes/bacerr/errorclass_string.go:25-30 *)
Definition class_String (i : Z) : res text :=
  if 8 <=? i then ROk (txt "ErrorClass("%string ++ sprint_d i ++ txt ")"%string) else piece class_name class_index i.
(** btypes/bacerr/errorcode_string.go:150 *)
Definition code_name_0 : text := txt "OtherAuthenticationFailedConfigurationInProgressDeviceBusyDynamicCreationNotSupportedFileAccessDeniedIncompatibleSecurityLevelsInconsistentParametersInconsistentSelectionCriterionInvalidDataTypeInvalidFileAccessMethodInvalidFileStartPositionInvalidOperatorNameInvalidParameterDataTypeInvalidTimeStampKeyGenerationErrorMissingRequiredParameterNoObjectsOfSpecifiedTypeNoSpaceForObjectNoSpaceToAddListElementNoSpaceToWritePropertyNoVtSessionsAvailablePropertyIsNotAListObjectDeletionNotPermittedObjectIdentifierAlreadyExistsOperationalProblemPasswordFailureReadAccessDeniedSecurityNotSupportedServiceRequestDeniedTimeoutUnknownObjectUnknownProperty"%string.
(** btypes/bacerr/errorcode_string.go:155 *)
Definition code_index_0 : list Z :=
  [0; 5; 25; 48; 58; 85; 101; 127; 149; 179; 194; 217; 241; 260; 284; 300; 318; 342; 366; 382; 405; 427; 448; 466; 492; 521; 539; 554; 570; 590; 610;
   617; 630; 645].
(** btypes/bacerr/errorcode_string.go:151 *)
Definition code_name_1 : text := txt "UnknownVtClassUnknownVtSessionUnsupportedObjectTypeValueOutOfRangeVtSessionAlreadyClosedVtSessionTerminationFailureWriteAccessDeniedCharacterSetNotSupportedInvalidArrayIndexCovSubscriptionFailedNotCovPropertyOptionalFunctionalityNotSupportedInvalidConfigurationDataDatatypeNotSupportedDuplicateNameDuplicateObjectIDPropertyIsNotAnArrayAbortBufferOverflowAbortInvalidApduInThisStateAbortPreemptedByHigherPriorityTaskAbortSegmentationNotSupportedAbortProprietaryAbortOtherInvalidTagNetworkDownRejectBufferOverflowRejectInconsistentParametersRejectInvalidParameterDataTypeRejectInvalidTagRejectMissingRequiredParameterRejectParameterOutOfRangeRejectTooManyArgumentsRejectUndefinedEnumerationRejectUnrecognizedServiceRejectProprietaryRejectOtherUnknownDeviceUnknownRouteValueNotInitializedInvalidEventStateNoAlarmConfiguredLogBufferFullLoggedValuePurgedNoPropertySpecifiedNotConfiguredForTriggeredLoggingUnknownSubscriptionParameterOutOfRangeListElementNotFoundBusyCommunicationDisabledSuccessAccessDeniedBadDestinationAddressBadDestinationDeviceIDBadSignatureBadSourceAddressBadTimestampCannotUseKeyCannotVerifyMessageIDCorrectKeyRevisionDestinationDeviceIDRequiredDuplicateMessageEncryptionNotConfiguredEncryptionRequiredIncorrectKeyInvalidKeyDataKeyUpdateInProgressMalformedMessageNotKeyServerSecurityNotConfiguredSourceSecurityRequiredTooManyKeysUnknownAuthenticationTypeUnknownKeyUnknownKeyRevisionUnknownSourceMessageNotRouterToDnetRouterBusyUnknownNetworkMessageMessageTooLongSecurityErrorCodeAddressingErrorWriteBdtFailedReadBdtFailedRegisterForeignDeviceFailedReadFdtFailedDeleteFdtEntryFailedDistributeBroadcastFailedUnknownFileSizeAbortApduTooLongAbortApplicationExceededReplyTimeAbortOutOfResourcesAbortTsmTimeoutAbortWindowSizeOutOfRangeFileFullInconsistentConfigurationInconsistentObjectTypeInternalErrorNotConfiguredOutOfMemoryValueTooLongAbortInsufficientSecurityAbortSecurityError"%string.
(** btypes/bacerr/errorcode_string.go:156 *)
Definition code_index_1 : list Z :=
  [0; 14; 30; 51; 66; 88; 115; 132; 156; 173; 194; 208; 241; 265; 285; 298; 315; 335; 354; 381; 415; 444; 460; 470; 480; 491; 511; 539; 569; 585; 615;
   640; 662; 688; 713; 730; 741; 754; 766; 785; 802; 819; 832; 849; 868; 900; 919; 938; 957; 961; 982; 989; 1001; 1022; 1044; 1056; 1072; 1084; 1096;
   1117; 1135; 1162; 1178; 1201; 1219; 1231; 1245; 1264; 1280; 1292; 1313; 1335; 1346; 1371; 1381; 1399; 1419; 1434; 1444; 1465; 1479; 1496; 1511;
   1525; 1538; 1565; 1578; 1598; 1623; 1638; 1654; 1687; 1706; 1721; 1746; 1754; 1779; 1801; 1814; 1827; 1838; 1850; 1875; 1893].
(** btypes/bacerr/errorcode_string.go:159-169 *)
Definition code_String (i : Z) : res text :=
  if i <=? 32 then piece code_name_0 code_index_0 i
  else if (34 <=? i) && (i <=? 136) then piece code_name_1 code_index_1 (i - 34)
  else ROk (txt "ErrorCode("%string ++ sprint_d i ++ txt ")"%string).
(** btypes/units/unit_string.go:240 *)
Definition unit_name_0 : text := txt "SquareMetersSquareFeetMilliamperesAmperesOhmsVoltsKilovoltsMegavoltsVoltAmperesKilovoltAmperesMegavoltAmperesVoltAmperesReactiveKilovoltAmperesReactiveMegavoltAmperesReactiveDegreesPhasePowerFactorJoulesKilojoulesWattHoursKilowattHoursBtusThermsTonHoursJoulesPerKilogramDryAirBtusPerPoundDryAirCyclesPerHourCyclesPerMinuteHertzGramsOfWaterPerKilogramDryAirPercentRelativeHumidityMillimetersMetersInchesFeetWattsPerSquareFootWattsPerSquareMeterLumensLuxesFootCandlesKilogramsPoundsMassTonsKilogramsPerSecondKilogramsPerMinuteKilogramsPerHourPoundsMassPerMinutePoundsMassPerHourWattsKilowattsMegawattsBtusPerHourHorsepowerTonsRefrigerationPascalsKilopascalsBarsPoundsForcePerSquareInchCentimetersOfWaterInchesOfWaterMillimetersOfMercuryCentimetersOfMercuryInchesOfMercuryDegreesCelsiusDegreesKelvinDegreesFahrenheitDegreeDaysCelsiusDegreeDaysFahrenheitYearsMonthsWeeksDaysHoursMinutesSecondsMetersPerSecondKilometersPerHourFeetPerSecondFeetPerMinuteMilesPerHourCubicFeetCubicMetersImperialGallonsLitersUsGallonsCubicFeetPerMinuteCubicMetersPerSecondImperialGallonsPerMinuteLitersPerSecondLitersPerMinuteUSGallonsPerMinuteDegreesAngularDegreesCelsiusPerHourDegreesCelsiusPerMinuteDegreesFahrenheitPerHourDegreesFahrenheitPerMinuteNoUnitsPartsPerMillionPartsPerBillionPercentPercentPerSecondPerMinutePerSecondPsiPerDegreeFahrenheitRadiansRevolutionsPerMinute"%string.
(** btypes/units/unit_string.go:246 *)
Definition unit_index_0 : list Z :=
  [0; 12; 22; 34; 41; 45; 50; 59; 68; 79; 94; 109; 128; 151; 174; 186; 197; 203; 213; 222; 235; 239; 245; 253; 276; 294; 307; 322; 327; 356; 379; 390;
   396; 402; 406; 424; 443; 449; 454; 465; 474; 484; 488; 506; 524; 540; 559; 576; 581; 590; 599; 610; 620; 637; 644; 655; 659; 683; 701; 714; 734;
   754; 769; 783; 796; 813; 830; 850; 855; 861; 866; 870; 875; 882; 889; 904; 921; 934; 947; 959; 968; 979; 994; 1000; 1009; 1027; 1047; 1071; 1086;
   1101; 1119; 1133; 1154; 1177; 1201; 1227; 1234; 1249; 1264; 1271; 1287; 1296; 1305; 1327; 1334; 1354].
(** btypes/units/unit_string.go:241 *)
Definition unit_name_1 : text := txt "SquareInchesSquareCentimetersBtusPerPoundCentimetersPoundsMassPerSecondDeltaDegreesFahrenheitDeltaDegreesKelvinKilohmsMegohmsMillivoltsKilojoulesPerKilogramMegajoulesJoulesPerDegreeKelvinJoulesPerKilogramDegreeKelvinKilohertzMegahertzPerHourMilliwattsHectopascalsMillibarsCubicMetersPerHourLitersPerHourKwHoursPerSquareMeterKwHoursPerSquareFootMegajoulesPerSquareMeterMegajoulesPerSquareFootWattsPerSquareMeterDegreeKelvinCubicFeetPerSecondPercentObscurationPerFootPercentObscurationPerMeterMilliohmsMegawattHoursKiloBtusMegaBtusKilojoulesPerKilogramDryAirMegajoulesPerKilogramDryAirKilojoulesPerDegreeKelvinMegajoulesPerDegreeKelvinNewtonGramsPerSecondGramsPerMinuteTonsPerHourKiloBtusPerHourHundredthsSecondsMillisecondsNewtonMetersMillimetersPerSecondMillimetersPerMinuteMetersPerMinuteMetersPerHourCubicMetersPerMinuteMetersPerSecondPerSecondAmperesPerMeterAmperesPerSquareMeterAmpereSquareMetersFaradsHenrysOhmMetersSiemensSiemensPerMeterTeslasVoltsPerDegreeKelvinVoltsPerMeterWebersCandelasCandelasPerSquareMeterDegreesKelvinPerHourDegreesKelvinPerMinuteJouleSecondsRadiansPerSecondSquareMetersPerNewtonKilogramsPerCubicMeterNewtonSecondsNewtonsPerMeterWattsPerMeterPerDegreeKelvinMicrosiemensCubicFeetPerHourUSGallonsPerHourKilometersMicrometersGramsMilligramsMillilitersMillilitersPerSecondDecibelsDecibelsMillivoltDecibelsVoltMillisiemensWattHoursReactiveKilowattHoursReactiveMegawattHoursReactiveMillimetersOfWaterPerMilleGramsPerGramKilogramsPerKilogramGramsPerKilogramMilligramsPerGramMilligramsPerKilogramGramsPerMilliliterGramsPerLiterMilligramsPerLiterMicrogramsPerLiterGramsPerCubicMeterMilligramsPerCubicMeterMicrogramsPerCubicMeterNanogramsPerCubicMeterGramsPerCubicCentimeterBecquerels"%string.
(** btypes/units/unit_string.go:247 *)
Definition unit_index_1 : list Z :=
  [0; 12; 29; 41; 52; 71; 93; 111; 118; 125; 135; 156; 166; 187; 216; 225; 234; 241; 251; 263; 272; 290; 303; 324; 344; 368; 391; 422; 440; 465; 491;
   500; 513; 521; 529; 556; 583; 608; 633; 639; 653; 667; 678; 693; 710; 722; 734; 754; 774; 789; 802; 822; 846; 861; 882; 900; 906; 912; 921; 928;
   943; 949; 969; 982; 988; 996; 1018; 1038; 1060; 1072; 1088; 1109; 1131; 1144; 1159; 1187; 1199; 1215; 1231; 1241; 1252; 1257; 1267; 1278; 1298;
   1306; 1323; 1335; 1347; 1364; 1385; 1406; 1424; 1432; 1444; 1464; 1480; 1497; 1518; 1536; 1549; 1567; 1585; 1603; 1626; 1649; 1671; 1694; 1704].
(** btypes/units/unit_string.go:242 *)
Definition unit_name_2 : text := txt "MegabecquerelsGrayMilligrayMicrograySievertsMillisievertsMicrosievertsMicrosievertsPerHourDecibelsANephelometricTurbidityUnitPhGramsPerSquareMeterMinutesPerDegreeKelvin"%string.
(** btypes/units/unit_string.go:248 *)
Definition unit_index_2 : list Z :=
  [0; 14; 18; 27; 36; 44; 57; 70; 90; 99; 125; 127; 146; 168].
(** btypes/units/unit_string.go:251-264 *)
Definition unit_String (i : Z) : res text :=
  if i <=? 104 then piece unit_name_0 unit_index_0 i
  else if (115 <=? i) && (i <=? 222) then piece unit_name_1 unit_index_1 (i - 115)
  else if (224 <=? i) && (i <=? 236) then piece unit_name_2 unit_index_2 (i - 224)
  else ROk (txt "Unit("%string ++ sprint_d i ++ txt ")"%string).
(** btypes/segmentation/segmentedtype_string.go:17 *)
Definition seg_name : text := txt "SegmentedBothSegmentedTransmitSegmentedReceiveNoSegmentation"%string.
(** btypes/segmentation/segmentedtype_string.go:19 *)
Definition seg_index : list Z :=
  [0; 13; 30; 46; 60].
(** btypes/segmentation/segmentedtype_string.go:21-26 *)
Definition seg_String (i : Z) : res text :=
  if 4 <=? i then ROk (txt "SegmentedType("%string ++ sprint_d i ++ txt ")"%string) else piece seg_name seg_index i.
(** btypes/ndpu/networkmessagetype_string.go:18 *)
Definition netmsg_name_0 : text := txt "WhoIsRouterToNetworkIamRouterToNetwork"%string.
(** btypes/ndpu/networkmessagetype_string.go:23 *)
Definition netmsg_index_0 : list Z :=
  [0; 20; 38].
(** btypes/ndpu/networkmessagetype_string.go:19 *)
Definition netmsg_name_1 : text := txt "WhatIsNetworkNumberNetworkIs"%string.
(** btypes/ndpu/networkmessagetype_string.go:24 *)
Definition netmsg_index_1 : list Z :=
  [0; 19; 28].
(** btypes/ndpu/networkmessagetype_string.go:27-37 *)
Definition netmsg_String (i : Z) : res text :=
  if i <=? 1 then piece netmsg_name_0 netmsg_index_0 i
  else if (18 <=? i) && (i <=? 19) then piece netmsg_name_1 netmsg_index_1 (i - 18)
  else ROk (txt "NetworkMessageType("%string ++ sprint_d i ++ txt ")"%string).

(** device.go:223: the error handed to the transaction, which ReadProperty and
    WriteProperty return as it is (readprop.go:55-56, writeprop.go:53-54) *)
Definition error_text (class code : Z) : res text :=
  rbind (class_String class) (fun a => rbind (code_String code) (fun b =>
  ROk (txt "error class "%string ++ a ++ txt " code "%string ++ b))).
(** network/points.go:58: UnitString of the details of a point; it stays empty where the
    unit is not read *)
Definition UnitString (p : pointDetails) : res text :=
  match pd_unitname p with Some u => unit_String u | None => ROk [] end.
