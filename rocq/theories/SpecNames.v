(** What the properties of the texts of enumerations observe: the numbers and names of
    the standard's enumerations (ASHRAE 135, clause 21) that the library declares. *)
From Coq Require Import String.
From Verif Require Import ModelNames SpecWire SpecLayers SpecServices SpecObs SpecClient SpecNet SpecCmd.
Close Scope string_scope.
Open Scope list_scope.
Open Scope Z_scope.

(** error classes *)
Definition named_class : list (Z * text) :=
  map (fun x => (fst x, txt (snd x)))
  [(0, "DeviceError"); (1, "ObjectError"); (2, "PropertyError"); (3, "ResourcesError"); (4, "SecurityError"); (5, "ServicesError"); (6, "VTError");
   (7, "CommunicationError")]%string.
(** error codes *)
Definition named_code : list (Z * text) :=
  map (fun x => (fst x, txt (snd x)))
  [(0, "Other"); (1, "AuthenticationFailed"); (2, "ConfigurationInProgress"); (3, "DeviceBusy"); (4, "DynamicCreationNotSupported");
   (5, "FileAccessDenied"); (6, "IncompatibleSecurityLevels"); (7, "InconsistentParameters"); (8, "InconsistentSelectionCriterion");
   (9, "InvalidDataType"); (10, "InvalidFileAccessMethod"); (11, "InvalidFileStartPosition"); (12, "InvalidOperatorName");
   (13, "InvalidParameterDataType"); (14, "InvalidTimeStamp"); (15, "KeyGenerationError"); (16, "MissingRequiredParameter");
   (17, "NoObjectsOfSpecifiedType"); (18, "NoSpaceForObject"); (19, "NoSpaceToAddListElement"); (20, "NoSpaceToWriteProperty");
   (21, "NoVtSessionsAvailable"); (22, "PropertyIsNotAList"); (23, "ObjectDeletionNotPermitted"); (24, "ObjectIdentifierAlreadyExists");
   (25, "OperationalProblem"); (26, "PasswordFailure"); (27, "ReadAccessDenied"); (28, "SecurityNotSupported"); (29, "ServiceRequestDenied");
   (30, "Timeout"); (31, "UnknownObject"); (32, "UnknownProperty"); (34, "UnknownVtClass"); (35, "UnknownVtSession"); (36, "UnsupportedObjectType");
   (37, "ValueOutOfRange"); (38, "VtSessionAlreadyClosed"); (39, "VtSessionTerminationFailure"); (40, "WriteAccessDenied");
   (41, "CharacterSetNotSupported"); (42, "InvalidArrayIndex"); (43, "CovSubscriptionFailed"); (44, "NotCovProperty");
   (45, "OptionalFunctionalityNotSupported"); (46, "InvalidConfigurationData"); (47, "DatatypeNotSupported"); (48, "DuplicateName");
   (49, "DuplicateObjectID"); (50, "PropertyIsNotAnArray"); (51, "AbortBufferOverflow"); (52, "AbortInvalidApduInThisState");
   (53, "AbortPreemptedByHigherPriorityTask"); (54, "AbortSegmentationNotSupported"); (55, "AbortProprietary"); (56, "AbortOther");
   (57, "InvalidTag"); (58, "NetworkDown"); (59, "RejectBufferOverflow"); (60, "RejectInconsistentParameters");
   (61, "RejectInvalidParameterDataType"); (62, "RejectInvalidTag"); (63, "RejectMissingRequiredParameter"); (64, "RejectParameterOutOfRange");
   (65, "RejectTooManyArguments"); (66, "RejectUndefinedEnumeration"); (67, "RejectUnrecognizedService"); (68, "RejectProprietary");
   (69, "RejectOther"); (70, "UnknownDevice"); (71, "UnknownRoute"); (72, "ValueNotInitialized"); (73, "InvalidEventState");
   (74, "NoAlarmConfigured"); (75, "LogBufferFull"); (76, "LoggedValuePurged"); (77, "NoPropertySpecified"); (78, "NotConfiguredForTriggeredLogging");
   (79, "UnknownSubscription"); (80, "ParameterOutOfRange"); (81, "ListElementNotFound"); (82, "Busy"); (83, "CommunicationDisabled");
   (84, "Success"); (85, "AccessDenied"); (86, "BadDestinationAddress"); (87, "BadDestinationDeviceID"); (88, "BadSignature");
   (89, "BadSourceAddress"); (90, "BadTimestamp"); (91, "CannotUseKey"); (92, "CannotVerifyMessageID"); (93, "CorrectKeyRevision");
   (94, "DestinationDeviceIDRequired"); (95, "DuplicateMessage"); (96, "EncryptionNotConfigured"); (97, "EncryptionRequired"); (98, "IncorrectKey");
   (99, "InvalidKeyData"); (100, "KeyUpdateInProgress"); (101, "MalformedMessage"); (102, "NotKeyServer"); (103, "SecurityNotConfigured");
   (104, "SourceSecurityRequired"); (105, "TooManyKeys"); (106, "UnknownAuthenticationType"); (107, "UnknownKey"); (108, "UnknownKeyRevision");
   (109, "UnknownSourceMessage"); (110, "NotRouterToDnet"); (111, "RouterBusy"); (112, "UnknownNetworkMessage"); (113, "MessageTooLong");
   (114, "SecurityErrorCode"); (115, "AddressingError"); (116, "WriteBdtFailed"); (117, "ReadBdtFailed"); (118, "RegisterForeignDeviceFailed");
   (119, "ReadFdtFailed"); (120, "DeleteFdtEntryFailed"); (121, "DistributeBroadcastFailed"); (122, "UnknownFileSize"); (123, "AbortApduTooLong");
   (124, "AbortApplicationExceededReplyTime"); (125, "AbortOutOfResources"); (126, "AbortTsmTimeout"); (127, "AbortWindowSizeOutOfRange");
   (128, "FileFull"); (129, "InconsistentConfiguration"); (130, "InconsistentObjectType"); (131, "InternalError"); (132, "NotConfigured");
   (133, "OutOfMemory"); (134, "ValueTooLong"); (135, "AbortInsufficientSecurity"); (136, "AbortSecurityError")]%string.
(** engineering units *)
Definition named_unit : list (Z * text) :=
  map (fun x => (fst x, txt (snd x)))
  [(0, "SquareMeters"); (1, "SquareFeet"); (2, "Milliamperes"); (3, "Amperes"); (4, "Ohms"); (5, "Volts"); (6, "Kilovolts"); (7, "Megavolts");
   (8, "VoltAmperes"); (9, "KilovoltAmperes"); (10, "MegavoltAmperes"); (11, "VoltAmperesReactive"); (12, "KilovoltAmperesReactive");
   (13, "MegavoltAmperesReactive"); (14, "DegreesPhase"); (15, "PowerFactor"); (16, "Joules"); (17, "Kilojoules"); (18, "WattHours");
   (19, "KilowattHours"); (20, "Btus"); (21, "Therms"); (22, "TonHours"); (23, "JoulesPerKilogramDryAir"); (24, "BtusPerPoundDryAir");
   (25, "CyclesPerHour"); (26, "CyclesPerMinute"); (27, "Hertz"); (28, "GramsOfWaterPerKilogramDryAir"); (29, "PercentRelativeHumidity");
   (30, "Millimeters"); (31, "Meters"); (32, "Inches"); (33, "Feet"); (34, "WattsPerSquareFoot"); (35, "WattsPerSquareMeter"); (36, "Lumens");
   (37, "Luxes"); (38, "FootCandles"); (39, "Kilograms"); (40, "PoundsMass"); (41, "Tons"); (42, "KilogramsPerSecond"); (43, "KilogramsPerMinute");
   (44, "KilogramsPerHour"); (45, "PoundsMassPerMinute"); (46, "PoundsMassPerHour"); (47, "Watts"); (48, "Kilowatts"); (49, "Megawatts");
   (50, "BtusPerHour"); (51, "Horsepower"); (52, "TonsRefrigeration"); (53, "Pascals"); (54, "Kilopascals"); (55, "Bars");
   (56, "PoundsForcePerSquareInch"); (57, "CentimetersOfWater"); (58, "InchesOfWater"); (59, "MillimetersOfMercury"); (60, "CentimetersOfMercury");
   (61, "InchesOfMercury"); (62, "DegreesCelsius"); (63, "DegreesKelvin"); (64, "DegreesFahrenheit"); (65, "DegreeDaysCelsius");
   (66, "DegreeDaysFahrenheit"); (67, "Years"); (68, "Months"); (69, "Weeks"); (70, "Days"); (71, "Hours"); (72, "Minutes"); (73, "Seconds");
   (74, "MetersPerSecond"); (75, "KilometersPerHour"); (76, "FeetPerSecond"); (77, "FeetPerMinute"); (78, "MilesPerHour"); (79, "CubicFeet");
   (80, "CubicMeters"); (81, "ImperialGallons"); (82, "Liters"); (83, "UsGallons"); (84, "CubicFeetPerMinute"); (85, "CubicMetersPerSecond");
   (86, "ImperialGallonsPerMinute"); (87, "LitersPerSecond"); (88, "LitersPerMinute"); (89, "USGallonsPerMinute"); (90, "DegreesAngular");
   (91, "DegreesCelsiusPerHour"); (92, "DegreesCelsiusPerMinute"); (93, "DegreesFahrenheitPerHour"); (94, "DegreesFahrenheitPerMinute");
   (95, "NoUnits"); (96, "PartsPerMillion"); (97, "PartsPerBillion"); (98, "Percent"); (99, "PercentPerSecond"); (100, "PerMinute");
   (101, "PerSecond"); (102, "PsiPerDegreeFahrenheit"); (103, "Radians"); (104, "RevolutionsPerMinute"); (115, "SquareInches");
   (116, "SquareCentimeters"); (117, "BtusPerPound"); (118, "Centimeters"); (119, "PoundsMassPerSecond"); (120, "DeltaDegreesFahrenheit");
   (121, "DeltaDegreesKelvin"); (122, "Kilohms"); (123, "Megohms"); (124, "Millivolts"); (125, "KilojoulesPerKilogram"); (126, "Megajoules");
   (127, "JoulesPerDegreeKelvin"); (128, "JoulesPerKilogramDegreeKelvin"); (129, "Kilohertz"); (130, "Megahertz"); (131, "PerHour");
   (132, "Milliwatts"); (133, "Hectopascals"); (134, "Millibars"); (135, "CubicMetersPerHour"); (136, "LitersPerHour");
   (137, "KwHoursPerSquareMeter"); (138, "KwHoursPerSquareFoot"); (139, "MegajoulesPerSquareMeter"); (140, "MegajoulesPerSquareFoot");
   (141, "WattsPerSquareMeterDegreeKelvin"); (142, "CubicFeetPerSecond"); (143, "PercentObscurationPerFoot"); (144, "PercentObscurationPerMeter");
   (145, "Milliohms"); (146, "MegawattHours"); (147, "KiloBtus"); (148, "MegaBtus"); (149, "KilojoulesPerKilogramDryAir");
   (150, "MegajoulesPerKilogramDryAir"); (151, "KilojoulesPerDegreeKelvin"); (152, "MegajoulesPerDegreeKelvin"); (153, "Newton");
   (154, "GramsPerSecond"); (155, "GramsPerMinute"); (156, "TonsPerHour"); (157, "KiloBtusPerHour"); (158, "HundredthsSeconds");
   (159, "Milliseconds"); (160, "NewtonMeters"); (161, "MillimetersPerSecond"); (162, "MillimetersPerMinute"); (163, "MetersPerMinute");
   (164, "MetersPerHour"); (165, "CubicMetersPerMinute"); (166, "MetersPerSecondPerSecond"); (167, "AmperesPerMeter"); (168, "AmperesPerSquareMeter");
   (169, "AmpereSquareMeters"); (170, "Farads"); (171, "Henrys"); (172, "OhmMeters"); (173, "Siemens"); (174, "SiemensPerMeter"); (175, "Teslas");
   (176, "VoltsPerDegreeKelvin"); (177, "VoltsPerMeter"); (178, "Webers"); (179, "Candelas"); (180, "CandelasPerSquareMeter");
   (181, "DegreesKelvinPerHour"); (182, "DegreesKelvinPerMinute"); (183, "JouleSeconds"); (184, "RadiansPerSecond"); (185, "SquareMetersPerNewton");
   (186, "KilogramsPerCubicMeter"); (187, "NewtonSeconds"); (188, "NewtonsPerMeter"); (189, "WattsPerMeterPerDegreeKelvin"); (190, "Microsiemens");
   (191, "CubicFeetPerHour"); (192, "USGallonsPerHour"); (193, "Kilometers"); (194, "Micrometers"); (195, "Grams"); (196, "Milligrams");
   (197, "Milliliters"); (198, "MillilitersPerSecond"); (199, "Decibels"); (200, "DecibelsMillivolt"); (201, "DecibelsVolt"); (202, "Millisiemens");
   (203, "WattHoursReactive"); (204, "KilowattHoursReactive"); (205, "MegawattHoursReactive"); (206, "MillimetersOfWater"); (207, "PerMille");
   (208, "GramsPerGram"); (209, "KilogramsPerKilogram"); (210, "GramsPerKilogram"); (211, "MilligramsPerGram"); (212, "MilligramsPerKilogram");
   (213, "GramsPerMilliliter"); (214, "GramsPerLiter"); (215, "MilligramsPerLiter"); (216, "MicrogramsPerLiter"); (217, "GramsPerCubicMeter");
   (218, "MilligramsPerCubicMeter"); (219, "MicrogramsPerCubicMeter"); (220, "NanogramsPerCubicMeter"); (221, "GramsPerCubicCentimeter");
   (222, "Becquerels"); (224, "Megabecquerels"); (225, "Gray"); (226, "Milligray"); (227, "Microgray"); (228, "Sieverts"); (229, "Millisieverts");
   (230, "Microsieverts"); (231, "MicrosievertsPerHour"); (232, "DecibelsA"); (233, "NephelometricTurbidityUnit"); (234, "Ph");
   (235, "GramsPerSquareMeter"); (236, "MinutesPerDegreeKelvin")]%string.
(** segmentation *)
Definition named_seg : list (Z * text) :=
  map (fun x => (fst x, txt (snd x)))
  [(0, "SegmentedBoth"); (1, "SegmentedTransmit"); (2, "SegmentedReceive"); (3, "NoSegmentation")]%string.
(** network layer messages *)
Definition named_netmsg : list (Z * text) :=
  map (fun x => (fst x, txt (snd x)))
  [(0, "WhoIsRouterToNetwork"); (1, "IamRouterToNetwork"); (18, "WhatIsNetworkNumber"); (19, "NetworkIs")]%string.

Inductive kind := KClass | KCode | KUnit | KSeg | KNetMsg.
Definition table (k : kind) : list (Z * text) :=
  match k with KClass => named_class | KCode => named_code | KUnit => named_unit | KSeg => named_seg | KNetMsg => named_netmsg end.
Definition kind_name (k : kind) : text :=
  txt (match k with KClass => "ErrorClass" | KCode => "ErrorCode" | KUnit => "Unit" | KSeg => "SegmentedType" | KNetMsg => "NetworkMessageType" end)%string.
(** the numbers of the type *)
Definition limit (k : kind) : Z :=
  match k with KClass => 65536 | KCode => 4294967296 | KUnit => 65536 | KSeg => 256 | KNetMsg => 256 end.
(** the method String of the type *)
Definition shows (k : kind) : Z -> res text :=
  match k with KClass => class_String | KCode => code_String | KUnit => unit_String | KSeg => seg_String | KNetMsg => netmsg_String end.
(** [s] tells number [n]: its name, or the type and the number in decimal notation
    when it has none *)
Definition tells (k : kind) (n : Z) (s : text) : Prop :=
  In (n, s) (table k)
  \/ (~ In n (map fst (table k)) /\ exists d, numeral d n /\ s = kind_name k ++ [40] ++ d ++ [41]).
(** the text of an error of class [c] and code [x] *)
Definition tells_error (c x : Z) (s : text) : Prop :=
  exists a b, tells KClass c a /\ tells KCode x b /\ s = txt "error class "%string ++ a ++ txt " code "%string ++ b.
(** the client asks the device at [ip], [port] for property [p] of [o]; the device's
    answer arrives in frame [b] while the call waits, and is the first answer *)
Definition answered_by (e : env) (ip : list Z) (port net mac id : Z) (o : object_id) (p idx : Z) (b : list Z) : Prop :=
  ev_id e = Some id /\ is_byte id
  /\ let g := mkDgram ip port (point_frame net mac (spec_read_request id o p idx)) in
     at_sent (ev_att e 0 g) = true
     /\ exists known src pl, handleMsg known src b = ([EDeliver id pl], false) /\ at_reply (ev_att e 0 g) = Some pl.
