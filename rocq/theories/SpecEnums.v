(** * Table of the enumerations of src/common/enums.rs.

    One line per enumeration: name, wire width in bytes, number of variants, smallest code,
    largest code, sum of all codes, default code. Generated by tools/gen_spec_enums.py, which scans
    the source independently of the generator of [Enums]. *)
From Coq Require Import String List NArith.
Import ListNotations.
Open Scope N_scope.

Definition enum_row : Type := (string * N * N * N * N * N * N)%type.
Definition enum_table : list enum_row := [
  ("ProtocolVersion"%string, 1, 8, 0, 7, 28, 7);
  ("PduType"%string, 1, 73, 0, 72, 2628, 0);
  ("ProtocolFamily"%string, 1, 14, 0, 13, 91, 0);
  ("ForceId"%string, 1, 31, 0, 30, 465, 0);
  ("EntityKind"%string, 1, 10, 0, 9, 45, 0);
  ("OtherKinds"%string, 1, 6, 0, 5, 15, 0);
  ("LandDomainCategories"%string, 1, 57, 0, 93, 2122, 0);
  ("AirDomainCategories"%string, 1, 34, 0, 101, 1594, 0);
  ("SurfaceDomainCategories"%string, 1, 48, 0, 101, 2020, 0);
  ("SubsurfaceDomainCategories"%string, 1, 20, 0, 82, 379, 0);
  ("SpaceDomainCategories"%string, 1, 13, 0, 18, 132, 0);
  ("MunitionKind"%string, 1, 13, 0, 12, 78, 0);
  ("MunitionCategory"%string, 1, 4, 0, 3, 6, 0);
  ("USWeaponSubcategories"%string, 1, 122, 1, 134, 7515, 1);
  ("RussiaWeaponSubcategories"%string, 1, 52, 201, 253, 11784, 201);
  ("UKWeaponSubcategories"%string, 1, 12, 1, 12, 78, 1);
  ("FrenchWeaponSubcategories"%string, 1, 8, 1, 8, 36, 1);
  ("LifeFormsSubcategoryGermanWeapons"%string, 1, 9, 1, 9, 45, 1);
  ("EnvironmentalSubcategory"%string, 1, 6, 0, 100, 300, 0);
  ("RadioCategory"%string, 1, 44, 0, 51, 965, 0);
  ("RadioSubcategory"%string, 1, 60, 0, 66, 2162, 0);
  ("ExpendableAirCategory"%string, 1, 12, 0, 14, 75, 0);
  ("ExpendableSurfaceCategory"%string, 1, 7, 0, 14, 45, 0);
  ("ExpendableSubsurfaceCategory"%string, 1, 7, 0, 11, 46, 0);
  ("SensorEmitterCategory"%string, 1, 17, 0, 16, 136, 0);
  ("Country"%string, 2, 279, 0, 282, 39156, 0);
  ("DeadReckoningAlgorithm"%string, 1, 10, 0, 9, 45, 0);
  ("EntityMarkingCharacterSet"%string, 1, 4, 0, 3, 6, 0);
  ("EntityCapabilities"%string, 4, 13, 0, 12, 78, 0);
  ("VariableParameterRecordType"%string, 1, 5, 0, 4, 10, 0);
  ("AttachedParts"%string, 4, 15, 0, 905, 10926, 0);
  ("ArticulatedPartsTypeMetric"%string, 1, 17, 0, 16, 136, 0);
  ("ArticulatedPartsTypeClass"%string, 4, 258, 0, 10144, 1511616, 0);
  ("MunitionDescriptorWarhead"%string, 2, 97, 0, 9500, 530910, 0);
  ("MunitionDescriptorFuse"%string, 2, 107, 0, 9620, 402457, 0);
  ("DetonationResult"%string, 1, 34, 0, 33, 561, 0);
  ("ServiceRequestServiceTypeRequested"%string, 1, 5, 0, 4, 10, 0);
  ("RepairCompleteRepair"%string, 2, 84, 0, 10020, 316211, 0);
  ("RepairResponseRepairResult"%string, 1, 5, 0, 4, 10, 0);
  ("VariableRecordTypes"%string, 4, 1248, 1, 5507010, 466215264, 1);
  ("Reason"%string, 1, 9, 0, 8, 36, 0);
  ("AcknowledgeFlag"%string, 2, 5, 1, 5, 15, 1);
  ("AcknowledgeResponseFlag"%string, 2, 4, 0, 3, 6, 0);
  ("ActionRequestActionID"%string, 4, 52, 0, 4305, 14209, 0);
  ("ActionResponseRequestStatus"%string, 4, 14, 0, 201, 457, 0);
  ("EventType"%string, 4, 19, 0, 19, 189, 0);
  ("RequiredReliabilityService"%string, 1, 2, 0, 1, 1, 0);
  ("EmitterName"%string, 2, 2758, 2, 45307, 52272884, 2);
  ("EmitterSystemFunction"%string, 1, 82, 0, 103, 3618, 0);
  ("ElectromagneticEmissionStateUpdateIndicator"%string, 1, 2, 0, 1, 1, 0);
  ("ElectromagneticEmissionBeamFunction"%string, 1, 24, 0, 25, 288, 0);
  ("HighDensityTrackJam"%string, 1, 2, 0, 1, 1, 0);
  ("DesignatorSystemName"%string, 2, 103, 0, 11400, 650830, 0);
  ("DesignatorCode"%string, 2, 1, 0, 0, 0, 0);
  ("IFFSystemType"%string, 2, 15, 0, 14, 105, 0);
  ("IFFSystemName"%string, 2, 19, 0, 18, 171, 0);
  ("IFFSystemMode"%string, 1, 6, 0, 5, 15, 0);
  ("IFFLayerSpecificInformation"%string, 1, 1, 0, 0, 0, 0);
  ("IFFAlternateMode4ChallengeReply"%string, 1, 5, 0, 4, 10, 0);
  ("IFFSystemType1OperationalParameter1"%string, 1, 1, 0, 0, 0, 0);
  ("IFFSystemType1OperationalParameter2"%string, 1, 1, 0, 0, 0, 0);
  ("SubcategoriesforLandCategory200Mammal"%string, 1, 29, 1, 200, 1970, 1);
  ("SubcategoriesforLandCategory201Reptile"%string, 1, 23, 1, 122, 1281, 1);
  ("SubcategoriesforLandCategory202Amphibian"%string, 1, 4, 1, 230, 403, 1);
  ("SubcategoriesforLandCategory203Insect"%string, 1, 7, 1, 100, 482, 1);
  ("SubcategoriesforLandCategory204Arachnid"%string, 1, 5, 1, 50, 141, 1);
  ("SubcategoriesforLandCategory205Mollusk"%string, 1, 2, 1, 50, 51, 1);
  ("SubcategoriesforLandCategory206Marsupial"%string, 1, 12, 1, 211, 1609, 1);
  ("SubcategoriesforAirCategory200Bird"%string, 1, 27, 1, 80, 708, 1);
  ("SubcategoriesforAirCategory201Insect"%string, 1, 9, 1, 80, 353, 1);
  ("SubcategoriesforAirCategory202Mammal"%string, 1, 3, 1, 20, 31, 1);
  ("SubcategoriesforSubsurfaceCategory200Fish"%string, 1, 27, 1, 201, 2552, 1);
  ("SubcategoriesforSubsurfaceCategory201Mammal"%string, 1, 59, 1, 200, 3909, 1);
  ("SubcategoriesforSubsurfaceCategory202Mollusk"%string, 1, 9, 1, 80, 361, 1);
  ("SubcategoriesforSubsurfaceCategory203Crustacean"%string, 1, 5, 1, 30, 63, 1);
  ("SubcategoriesforSubsurfaceCategory204Insect"%string, 1, 2, 1, 2, 3, 1);
  ("AnimalLifeformGroupSizeRangeEnumerationforallDomains"%string, 1, 14, 201, 220, 2926, 201);
  ("SpecificDimensionEnumerationsforLandAreaSize"%string, 1, 6, 222, 227, 1347, 222);
  ("SpecificDimensionEnumerationsforAirAreaSize"%string, 1, 6, 222, 227, 1347, 222);
  ("AddSpecificDimensionEnumerationsforSubsurfaceAreaSize"%string, 1, 6, 222, 227, 1347, 222);
  ("AddVariantsforLandCategory200Mammal"%string, 1, 6, 1, 6, 21, 1);
  ("VariantsforLandCategoriesReptilesAmphibiansInsectsandArachnids"%string, 1, 5, 1, 5, 15, 1);
  ("VariantsforAirCategory200Bird"%string, 1, 4, 1, 4, 10, 1);
  ("AddVariantsforAirCategory201Insect"%string, 1, 3, 1, 3, 6, 1);
  ("AddVariantsforSubsurfaceCategoriesFishMolluskCrustaceanandInsect"%string, 1, 8, 1, 8, 36, 1);
  ("VariantsforSubsurfaceCategory201Mammal"%string, 1, 2, 1, 2, 3, 1);
  ("UAStateChangeUpdateIndicator"%string, 1, 2, 0, 1, 1, 0);
  ("UAAcousticSystemName"%string, 2, 10, 0, 9, 45, 0);
  ("UAAcousticEmitterSystemFunction"%string, 1, 5, 0, 4, 10, 0);
  ("UAActiveEmissionParameterIndex"%string, 2, 1, 0, 0, 0, 0);
  ("UAScanPattern"%string, 2, 6, 0, 5, 15, 0);
  ("UAPassiveParameterIndex"%string, 2, 1, 0, 0, 0, 0);
  ("UAAdditionalPassiveActivityParameterIndex"%string, 2, 1, 0, 0, 0, 0);
  ("TransmitterMajorModulation"%string, 2, 9, 0, 8, 36, 0);
  ("TransmitterDetailAmplitudeModulation"%string, 2, 11, 0, 10, 55, 0);
  ("TransmitterDetailAmplitudeandAngleModulation"%string, 2, 2, 0, 1, 1, 0);
  ("TransmitterDetailAngleModulation"%string, 2, 5, 0, 4, 10, 0);
  ("TransmitterDetailCombinationModulation"%string, 2, 2, 0, 1, 1, 0);
  ("TransmitterDetailPulseModulation"%string, 2, 4, 0, 3, 6, 0);
  ("TransmitterDetailUnmodulatedModulation"%string, 2, 2, 0, 1, 1, 0);
  ("TransmitterDetailCarrierPhaseShiftModulation"%string, 2, 1, 0, 0, 0, 0);
  ("TransmitterModulationTypeSystem"%string, 2, 14, 0, 13, 91, 0);
  ("TransmitterTransmitState"%string, 1, 3, 0, 2, 3, 0);
  ("TransmitterInputSource"%string, 1, 15, 0, 14, 105, 0);
  ("TransmitterCryptoSystem"%string, 2, 15, 0, 14, 105, 0);
  ("TransmitterAntennaPatternType"%string, 2, 6, 0, 6, 18, 0);
  ("TransmitterAntennaPatternReferenceSystem"%string, 1, 2, 1, 2, 3, 1);
  ("CCTTSINCGARSStartofMessage"%string, 1, 2, 0, 1, 1, 0);
  ("CCTTSINCGARSClearChannel"%string, 1, 2, 0, 1, 1, 0);
  ("TimeSlotAllocationLevel"%string, 1, 5, 0, 4, 10, 0);
  ("JTIDSMIDSModulationParametersTransmittingTerminalPrimaryMode"%string, 1, 2, 1, 2, 3, 1);
  ("JTIDSMIDSModulationParametersTransmittingTerminalSecondaryMode"%string, 1, 4, 0, 3, 6, 0);
  ("JTIDSMIDSModulationParametersSynchronizationState"%string, 1, 5, 0, 4, 10, 0);
  ("MessageTypeIdentifier"%string, 1, 8, 0, 7, 28, 0);
  ("SignalUserProtocolIdentificationNumber"%string, 4, 35, 1, 7050, 116084, 1);
  ("SignalTDLType"%string, 2, 97, 0, 127, 5393, 0);
  ("ReceiverReceiverState"%string, 2, 3, 0, 2, 3, 0);
  ("IntercomControlControlType"%string, 1, 6, 0, 5, 15, 0);
  ("IntercomControlCommunicationsType"%string, 1, 5, 0, 4, 10, 0);
  ("IntercomControlCommand"%string, 1, 7, 0, 6, 21, 0);
  ("IntercomControlTransmitLineState"%string, 1, 3, 0, 2, 3, 0);
  ("IntercomControlDestinationLineStateCommand"%string, 1, 4, 0, 3, 6, 0);
  ("IntercomControlRecordType"%string, 2, 3, 1, 3, 6, 1);
  ("CollisionType"%string, 1, 3, 0, 55, 56, 0);
  ("MinefieldSensorTypes"%string, 1, 9, 0, 8, 36, 0);
  ("MinefieldSensorTypesOptical"%string, 2, 12, 0, 11, 66, 0);
  ("MinefieldSensorTypesFLIR"%string, 2, 10, 0, 9, 45, 0);
  ("MinefieldSensorTypesRADAR"%string, 2, 6, 0, 5, 15, 0);
  ("MinefieldSensorTypesMagnetic"%string, 2, 4, 0, 3, 6, 0);
  ("MinefieldSensorTypesLaser"%string, 2, 2, 0, 1, 1, 0);
  ("MinefieldSensorTypesSONAR"%string, 2, 1, 0, 0, 0, 0);
  ("MinefieldSensorTypesPhysical"%string, 2, 3, 0, 2, 3, 0);
  ("MinefieldSensorTypesMultispectral"%string, 2, 1, 0, 0, 0, 0);
  ("AggregateStateAggregateState"%string, 1, 6, 0, 5, 15, 0);
  ("AggregateStateFormation"%string, 4, 6, 0, 5, 15, 0);
  ("AggregateStateAggregateKind"%string, 1, 6, 0, 5, 15, 0);
  ("AggregateStateSubcategory"%string, 1, 23, 0, 22, 253, 0);
  ("AggregateStateSpecific"%string, 1, 2, 0, 1, 1, 0);
  ("IsPartOfNature"%string, 2, 11, 0, 10, 55, 0);
  ("IsPartOfPosition"%string, 2, 3, 0, 2, 3, 0);
  ("IsPartOfStationName"%string, 2, 23, 0, 22, 253, 0);
  ("IsGroupOfGroupedEntityCategory"%string, 1, 10, 0, 9, 45, 0);
  ("IsGroupOfRestStatus"%string, 1, 9, 0, 8, 36, 0);
  ("TransferControlTransferType"%string, 1, 9, 0, 10, 46, 0);
  ("ObjectKind"%string, 1, 9, 0, 8, 36, 0);
  ("GriddedDataCoordinateSystem"%string, 2, 4, 0, 3, 6, 0);
  ("GriddedDataConstantGrid"%string, 1, 2, 0, 1, 1, 0);
  ("GriddedDataSampleType"%string, 1, 1, 0, 0, 0, 0);
  ("GriddedDataDataRepresentation"%string, 1, 3, 0, 2, 3, 0);
  ("EnvironmentalProcessModelType"%string, 1, 1, 0, 0, 0, 0);
  ("EnvironmentalProcessRecordType"%string, 4, 19, 256, 1879048192, 6588793347, 256);
  ("SignalEncodingClass"%string, 1, 4, 0, 3, 6, 0);
  ("SignalEncodingType"%string, 1, 12, 1, 100, 171, 1);
  ("RepairGroups"%string, 1, 10, 0, 9, 45, 0);
  ("EnvironmentRecordTypeGroups"%string, 1, 2, 0, 1, 1, 0);
  ("PlatformAirCivilianUltralightNonrigidWingAircraftSubcategories"%string, 1, 5, 1, 5, 15, 1);
  ("PlatformAirCivilianUltralightRigidWingAircraftSubcategories"%string, 1, 2, 1, 2, 3, 1);
  ("PlatformAirCivilianGliderSubcategories"%string, 1, 2, 1, 2, 3, 1);
  ("PlatformAirCivilianFixedWingAircraftSubcategories"%string, 1, 8, 11, 34, 189, 11);
  ("PlatformAirCivilianHelicopterSubcategories"%string, 1, 7, 11, 23, 116, 11);
  ("PlatformAirCivilianLighterthanAirBalloonSubcategories"%string, 1, 5, 1, 5, 15, 1);
  ("PlatformAirCivilianLighterthanAirAirshipSubcategories"%string, 1, 4, 1, 4, 10, 1);
  ("APAParameterIndexAPAStatus"%string, 1, 4, 0, 3, 6, 0);
  ("SeparationVPReasonforSeparation"%string, 1, 3, 0, 2, 3, 0);
  ("SeparationVPPreEntityIndicator"%string, 1, 4, 0, 3, 6, 0);
  ("IOActionIOWarfareType"%string, 2, 7, 0, 6, 21, 0);
  ("IOActionIOSimulationSource"%string, 2, 1, 0, 0, 0, 0);
  ("IOActionIOActionType"%string, 2, 5, 0, 4, 10, 0);
  ("IOActionIOActionPhase"%string, 2, 7, 0, 6, 21, 0);
  ("IOReportIOReportType"%string, 1, 4, 0, 3, 6, 0);
  ("IOEffectsRecordIOStatus"%string, 1, 8, 0, 7, 28, 0);
  ("IOEffectsRecordIOLinkType"%string, 1, 4, 0, 3, 6, 0);
  ("IOEffectsRecordIOEffect"%string, 1, 5, 0, 255, 261, 0);
  ("IOEffectsRecordIOProcess"%string, 1, 1, 0, 0, 0, 0);
  ("IOCommsNodeRecordCommsNodeType"%string, 1, 4, 0, 3, 6, 0);
  ("DISAttributeActionCode"%string, 1, 1, 0, 0, 0, 0);
  ("DRParametersType"%string, 1, 3, 0, 2, 3, 0);
  ("HighFidelityHAVEQUICKTODTransmitIndicator"%string, 1, 2, 0, 1, 1, 0);
  ("NETIDRecordMode"%string, 1, 3, 1, 3, 6, 1);
  ("NETIDRecordFrequencyTable"%string, 1, 4, 0, 3, 6, 0);
  ("EEAttributeStateIndicator"%string, 1, 3, 0, 2, 3, 0);
  ("TransferredEntityIndicator"%string, 1, 2, 0, 1, 1, 0);
  ("LVCIndicator"%string, 1, 4, 0, 3, 6, 0);
  ("CoupledExtensionIndicator"%string, 1, 2, 0, 1, 1, 0);
  ("FireTypeIndicator"%string, 1, 2, 0, 1, 1, 0);
  ("DetonationTypeIndicator"%string, 1, 3, 0, 2, 3, 0);
  ("RadioAttachedIndicator"%string, 1, 3, 0, 2, 3, 0);
  ("IntercomAttachedIndicator"%string, 1, 3, 0, 2, 3, 0);
  ("PduStatusIFFSimulationMode"%string, 1, 2, 0, 1, 1, 0);
  ("ExplosiveMaterialGroups"%string, 1, 7, 0, 6, 21, 0);
  ("ExplosiveMaterialCategories"%string, 2, 45, 0, 804, 12400, 0);
  ("DEPrecisionAimpointBeamSpotType"%string, 1, 3, 0, 2, 3, 0);
  ("DEFirePulseShape"%string, 1, 4, 0, 3, 6, 0);
  ("ComponentIdentification"%string, 1, 10, 0, 9, 45, 0);
  ("ComponentDamageStatus"%string, 1, 5, 0, 4, 10, 0);
  ("ComponentVisualSmokeColor"%string, 1, 4, 0, 3, 6, 0);
  ("BeamStatusBeamState"%string, 1, 2, 0, 1, 1, 0);
  ("EntityAssociationAssociationStatus"%string, 1, 7, 0, 6, 21, 0);
  ("EntityVPRecordChangeIndicator"%string, 1, 2, 0, 1, 1, 0);
  ("EntityAssociationGroupMemberType"%string, 1, 7, 0, 6, 21, 0);
  ("PhysicalAssociationTypeGroups"%string, 1, 5, 0, 4, 10, 0);
  ("EntityAssociationPhysicalAssociationType"%string, 1, 28, 0, 93, 894, 0);
  ("EntityAssociationPhysicalConnectionType"%string, 1, 13, 0, 12, 78, 0);
  ("SensorRecordSensorTypeOtherActiveSensors"%string, 1, 1, 0, 0, 0, 0);
  ("SensorRecordSensorTypePassiveSensors"%string, 2, 69, 60000, 60068, 4142346, 60000);
  ("MunitionExpendableStatus"%string, 1, 3, 0, 2, 3, 0);
  ("FuelMeasurementUnits"%string, 1, 3, 0, 2, 3, 0);
  ("FuelLocation"%string, 1, 1, 0, 0, 0, 0);
  ("EntityAssociationAssociationType"%string, 1, 15, 0, 14, 105, 0);
  ("SensorOnOffStatus"%string, 1, 2, 0, 1, 1, 0);
  ("OwnershipStatus"%string, 1, 7, 0, 6, 21, 0);
  ("RecordREventType"%string, 1, 1, 0, 0, 0, 0);
  ("RecordQueryREventType"%string, 2, 2, 0, 1, 1, 0);
  ("UAPropulsionPlantConfigurationConfiguration"%string, 1, 7, 0, 7, 23, 0);
  ("MinefieldStateProtocolMode"%string, 2, 2, 0, 1, 1, 0);
  ("TransponderInterrogatorIndicator"%string, 1, 2, 0, 1, 1, 0);
  ("IFFSimulationMode"%string, 1, 2, 0, 1, 1, 0);
  ("IFFApplicableModes"%string, 1, 2, 0, 1, 1, 0);
  ("ModeCAltitudeIndicator"%string, 1, 2, 0, 1, 1, 0);
  ("TCASACASBasicAdvancedIndicator"%string, 1, 2, 0, 1, 1, 0);
  ("TCASACASIndicator"%string, 1, 2, 0, 1, 1, 0);
  ("TCASACASSoftwareVersion"%string, 1, 3, 0, 2, 3, 0);
  ("TCASACASType"%string, 1, 3, 0, 2, 3, 0);
  ("TCASIIIType"%string, 1, 2, 0, 1, 1, 0);
  ("Mode5IFFMission"%string, 1, 7, 0, 6, 21, 0);
  ("ModeSInterrogatorStatusTransmitState"%string, 1, 6, 0, 5, 15, 0);
  ("ModeSInterrogatorIdentifierICType"%string, 1, 2, 0, 1, 1, 0);
  ("ISLSAntennaType"%string, 1, 2, 0, 1, 1, 0);
  ("Mode5Reply"%string, 1, 4, 0, 3, 6, 0);
  ("AntennaSelection"%string, 1, 4, 0, 3, 6, 0);
  ("Mode5SquitterType"%string, 1, 3, 0, 2, 3, 0);
  ("Level2SquitterStatus"%string, 1, 2, 0, 1, 1, 0);
  ("ModeSSquitterType"%string, 1, 4, 0, 3, 6, 0);
  ("ModeSSquitterRecordSource"%string, 1, 2, 0, 1, 1, 0);
  ("AircraftPresentDomain"%string, 1, 3, 0, 2, 3, 0);
  ("AircraftIdentificationType"%string, 1, 3, 0, 2, 3, 0);
  ("CapabilityReport"%string, 1, 6, 0, 255, 277, 0);
  ("NavigationSource"%string, 1, 4, 0, 3, 6, 0);
  ("IFFDataRecordAvailable"%string, 1, 2, 0, 1, 1, 0);
  ("Mode5SAltitudeResolution"%string, 1, 2, 0, 1, 1, 0);
  ("DeltaMode5SAltitudePositiveNegativeIndicator"%string, 1, 2, 0, 1, 1, 0);
  ("FormatType"%string, 1, 14, 0, 16, 130, 0);
  ("AircraftAddressSource"%string, 1, 2, 0, 1, 1, 0);
  ("SurveillanceStatus"%string, 1, 4, 0, 3, 6, 0);
  ("TurnRateSource"%string, 1, 3, 0, 2, 3, 0);
  ("TimeTypeSource"%string, 1, 3, 0, 2, 3, 0);
  ("AircraftTypeWake"%string, 1, 1, 0, 0, 0, 0);
  ("DataCategory"%string, 1, 3, 0, 2, 3, 0);
  ("TILinkType"%string, 1, 13, 0, 12, 78, 0);
  ("AntennaStatus"%string, 1, 3, 0, 2, 3, 0);
  ("TransmissionIndicator"%string, 1, 4, 0, 3, 6, 0);
  ("ReplyAmplification"%string, 1, 4, 0, 3, 6, 0);
  ("DEFireFlagsStateUpdateFlag"%string, 1, 2, 0, 1, 1, 0);
  ("ComponentVisualDamageStatusSmoke"%string, 1, 4, 0, 3, 6, 0);
  ("ComponentVisualDamageStatusSurfaceDamage"%string, 1, 4, 0, 3, 6, 0);
  ("GridAxisDescriptorAxisType"%string, 1, 2, 0, 1, 1, 0);
  ("AppearancePaintScheme"%string, 1, 2, 0, 1, 1, 0);
  ("AppearanceDamage"%string, 1, 4, 0, 3, 6, 0);
  ("Mode5MessageFormatsStatus"%string, 1, 2, 0, 1, 1, 0);
  ("AppearanceTrailingEffects"%string, 1, 4, 0, 3, 6, 0);
  ("AppearanceHatch"%string, 1, 6, 0, 5, 15, 0);
  ("AppearanceLauncherOperational"%string, 1, 2, 0, 1, 1, 0);
  ("AppearanceCamouflageType"%string, 1, 4, 0, 3, 6, 0);
  ("AppearanceConcealedPosition"%string, 1, 2, 0, 1, 1, 0);
  ("AppearanceEntityorObjectState"%string, 1, 2, 0, 1, 1, 0);
  ("AppearanceCanopy"%string, 1, 7, 0, 6, 21, 0);
  ("AppearanceSubsurfaceHatch"%string, 1, 3, 0, 4, 5, 0);
  ("ActiveInterrogationIndicator"%string, 1, 2, 0, 1, 1, 0);
  ("AppearanceLifeformHealth"%string, 1, 4, 0, 3, 6, 0);
  ("AppearanceLifeFormComplianceStatus"%string, 1, 16, 0, 15, 120, 0);
  ("AppearanceLifeFormPosture"%string, 1, 16, 0, 15, 120, 0);
  ("AppearanceLifeFormWeaponImplement"%string, 1, 4, 0, 3, 6, 0);
  ("AppearanceConcealedMovement"%string, 1, 2, 0, 1, 1, 0);
  ("AppearanceEnvironmentalDensity"%string, 1, 5, 0, 4, 10, 0);
  ("Mode5PlatformType"%string, 1, 2, 0, 1, 1, 0);
  ("AppearanceAntiCollisionDayNight"%string, 1, 2, 0, 1, 1, 0);
  ("AppearanceNavigationPositionBrightness"%string, 1, 2, 0, 1, 1, 0);
  ("AppearanceSupplyDeployed"%string, 1, 4, 0, 3, 6, 0);
  ("AppearanceNVGMode"%string, 1, 2, 0, 1, 1, 0);
  ("Parachute"%string, 1, 4, 0, 3, 6, 0);
  ("FlareSmokeColor"%string, 1, 4, 0, 3, 6, 0);
  ("FlareSmokeStatus"%string, 1, 3, 0, 2, 3, 0);
  ("SpotChaffStatus"%string, 1, 3, 0, 2, 3, 0);
  ("AppearanceObjectGeneralDamage"%string, 1, 3, 0, 2, 3, 0);
  ("AppearanceObjectGeneralPredistributed"%string, 1, 2, 0, 1, 1, 0);
  ("AppearanceObjectSpecificBreachState"%string, 1, 3, 0, 2, 3, 0);
  ("AppearanceObjectSpecificChemicalType"%string, 1, 4, 0, 3, 6, 0);
  ("AppearanceLinearObjectTankDitchBreach"%string, 1, 4, 0, 3, 6, 0);
  ("AppearanceLinearObjectLaneMarkerVisible"%string, 1, 3, 0, 2, 3, 0);
  ("AppearanceObjectGeneralIEDPresent"%string, 1, 4, 0, 3, 6, 0);
  ("Mode5LevelSelection"%string, 1, 2, 0, 1, 1, 0);
  ("SupplyFuelType"%string, 1, 11, 0, 10, 55, 0);
  ("SensorTypeSource"%string, 1, 6, 0, 5, 15, 0);
  ("AttachedPartDetachedIndicator"%string, 1, 2, 0, 1, 1, 0);
  ("IntercomControlCommunicationsClass"%string, 1, 2, 0, 1, 1, 0);
  ("DISLiveEntitySubprotocolNumber"%string, 1, 1, 0, 0, 0, 0);
  ("MinefieldAppearanceMinefieldType"%string, 1, 3, 0, 2, 3, 0);
  ("MinefieldAppearanceActiveStatus"%string, 1, 2, 0, 1, 1, 0);
  ("MinefieldAppearanceLane"%string, 1, 2, 0, 1, 1, 0);
  ("MinefieldAppearanceState"%string, 1, 2, 0, 1, 1, 0);
  ("MinefieldFusingFuseType"%string, 1, 7, 0, 6, 21, 0);
  ("Mode5LocationErrors"%string, 1, 2, 0, 1, 1, 0);
  ("MinefieldPaintSchemeAlgae"%string, 1, 4, 0, 3, 6, 0);
  ("MinefieldPaintSchemePaintScheme"%string, 1, 19, 0, 18, 171, 0);
  ("CoverShroudStatus"%string, 1, 4, 0, 3, 6, 0);
  ("PlatformLandMotorcycleSubcategories"%string, 1, 8, 0, 7, 28, 0);
  ("PlatformLandCarSubcategories"%string, 1, 44, 0, 115, 2501, 0);
  ("PlatformLandBusSubcategories"%string, 1, 19, 0, 18, 171, 0);
  ("PlatformLandSingleUnitCargoTruckSubcategories"%string, 1, 32, 0, 110, 1668, 0);
  ("PlatformLandSingleUnitUtilityEmergencyTruckSubcategories"%string, 1, 45, 0, 150, 2571, 0);
  ("PlatformLandMultipleUnitCargoTruckSubcategories"%string, 1, 3, 0, 2, 3, 0);
  ("PlatformLandMultipleUnitUtilityEmergencyTruckSubcategories"%string, 1, 2, 0, 1, 1, 0);
  ("PlatformLandConstructionSpecialtyVehicleSubcategories"%string, 1, 56, 0, 55, 1540, 0);
  ("PlatformLandFarmSpecialtyVehicleSubcategories"%string, 1, 9, 0, 8, 36, 0);
  ("PlatformLandTrailerSubcategories"%string, 1, 28, 0, 27, 378, 0);
  ("PlatformLandRecreationalSubcategories"%string, 1, 15, 0, 14, 105, 0);
  ("PlatformLandNonmotorizedSubcategories"%string, 1, 25, 0, 24, 300, 0);
  ("PlatformLandTrainsSubcategories"%string, 1, 8, 0, 7, 28, 0);
  ("PlatformLandUtilityEmergencyCarSubcategories"%string, 1, 6, 0, 5, 15, 0);
  ("PlatformSurfacePassengerVesselSubcategories"%string, 1, 5, 1, 5, 15, 1);
  ("PlatformSurfaceDryCargoShipSubcategories"%string, 1, 7, 1, 7, 28, 1);
  ("PlatformSurfaceTankerSubcategories"%string, 1, 9, 1, 9, 45, 1);
  ("PlatformSurfaceSupportVesselSubcategories"%string, 1, 9, 1, 9, 45, 1);
  ("PlatformSurfacePrivateMotorboatSubcategories"%string, 1, 4, 1, 4, 10, 1);
  ("PlatformSurfacePrivateSailboatSubcategories"%string, 1, 4, 1, 4, 10, 1);
  ("PlatformSurfaceFishingVesselSubcategories"%string, 1, 5, 1, 5, 15, 1);
  ("PlatformSurfaceOtherVesselsSubcategories"%string, 1, 10, 1, 10, 55, 1);
  ("CryptoKeyIDCryptoMode"%string, 1, 2, 0, 1, 1, 0);
  ("Color"%string, 1, 156, 0, 159, 12650, 0);
  ("BuildingPaintScheme"%string, 1, 1, 0, 0, 0, 0);
  ("Season"%string, 1, 4, 0, 3, 6, 0);
  ("Material"%string, 1, 4, 0, 3, 6, 0);
  ("Link11_11BFidelityLevel"%string, 1, 3, 0, 2, 3, 0);
  ("Link11TerminalMode"%string, 1, 3, 0, 2, 3, 0);
  ("Link11DataTerminalSetIndicator"%string, 1, 8, 0, 7, 28, 0);
  ("Link11ModeofOperation"%string, 2, 6, 0, 5, 15, 0);
  ("LifeFormsSubcategoryIranianWeapons"%string, 1, 2, 1, 2, 3, 1);
  ("LifeFormLandCategories"%string, 1, 27, 10, 206, 2811, 10);
  ("LifeFormHumanSubcategoryEquipmentClass"%string, 1, 29, 0, 172, 2077, 0);
  ("LifeFormHumanSpecificAssaultRifles"%string, 1, 62, 0, 240, 3945, 0);
  ("LifeFormHumanSpecificHighPowerRifles"%string, 1, 10, 0, 51, 192, 0);
  ("LifeFormCategoriesUS"%string, 1, 21, 11, 124, 927, 11);
  ("LifeFormExtraPersonalData"%string, 1, 38, 0, 190, 2890, 0);
  ("LifeFormAirCategories"%string, 1, 3, 200, 202, 603, 200);
  ("LifeFormSubsurfaceCategories"%string, 1, 5, 200, 204, 1010, 200);
  ("LifeFormHumanSpecificSniper"%string, 1, 31, 0, 200, 2420, 0);
  ("LifeFormHumanSpecificSubMachineGun"%string, 1, 13, 0, 69, 675, 0);
  ("AustralianCategoryOverlay"%string, 1, 6, 11, 52, 171, 11);
  ("LifeFormCategoriesAfghanistan"%string, 1, 13, 11, 133, 964, 11);
  ("LifeFormHumanSpecificEquipmentClass"%string, 1, 6, 1, 6, 21, 1);
  ("PlatformSubsurfaceCivilianSemiSubmersiblesSubcategories"%string, 1, 1, 1, 1, 1, 1);
  ("LeafCoverage"%string, 1, 2, 0, 1, 1, 0);
  ("LifeFormHumanSpecificAntiMaterielRifles"%string, 1, 3, 0, 11, 21, 0);
  ("LifeFormHumanSpecificShotGuns"%string, 1, 139, 0, 220, 14609, 0);
  ("LifeFormHumanSpecificMortars"%string, 1, 5, 0, 52, 183, 0);
  ("LifeFormHumanSpecificHandGuns"%string, 1, 16, 0, 60, 537, 0);
  ("LifeFormHumanSpecificWeaponNonspecific"%string, 1, 5, 0, 150, 310, 0);
  ("LifeFormHumanSpecificGrenadeLaunchers"%string, 1, 41, 0, 105, 1581, 0);
  ("LifeFormHumanSpecificMachineGuns"%string, 1, 87, 0, 166, 7028, 0);
  ("LifeFormHumanSpecificGrenadeLaunchingMachineGun"%string, 1, 20, 0, 80, 806, 0);
  ("LifeFormHumanSpecificAntiTankRockets"%string, 1, 69, 0, 145, 4817, 0);
  ("LifeFormHumanSpecificAntiTankMissiles"%string, 1, 74, 0, 200, 9205, 0);
  ("LifeFormHumanSpecificManPortableAirDefenseSystem"%string, 1, 24, 0, 60, 628, 0);
  ("LifeFormHumanSpecificRecoillessRifles"%string, 1, 29, 0, 97, 1392, 0);
  ("LifeFormHumanSpecificFlameRockets"%string, 1, 7, 0, 52, 243, 0);
  ("LifeFormHumanSpecificFlameThrowers"%string, 1, 15, 0, 51, 452, 0);
  ("LifeFormHumanSpecificDroneGuns"%string, 1, 3, 0, 16, 31, 0);
  ("LifeFormHumanSpecificLogisticsEQClass"%string, 1, 1, 1, 1, 1, 1);
  ("LifeFormHumanSpecificPersonalElectronicsClass"%string, 1, 1, 1, 1, 1, 1);
  ("LifeFormHumanSpecificLasersClass"%string, 1, 2, 1, 2, 3, 1);
  ("TransmitterDetailSATCOMModulation"%string, 2, 2, 0, 1, 1, 0);
  ("SupplyDomain"%string, 1, 13, 0, 12, 78, 0);
  ("Class1SupplyCategorySubsistence"%string, 1, 6, 1, 6, 21, 1);
  ("Class2SupplyCategoryClothingIndividualEquipmentToolsAdminSupplies"%string, 1, 8, 1, 8, 36, 1);
  ("Class3SupplyCategoryPetroleumOilsLubricants"%string, 1, 4, 1, 4, 10, 1);
  ("Class4SupplyCategoryConstructionMaterials"%string, 1, 3, 1, 3, 6, 1);
  ("Class6SupplyCategoryPersonnelDemandItems"%string, 1, 1, 1, 1, 1, 1);
  ("Class7SupplyCategoryMajorItems"%string, 1, 25, 1, 33, 437, 1);
  ("Class8SupplyCategoryMedicalMaterial"%string, 1, 3, 1, 3, 6, 1);
  ("Class9SupplyCategoryRepairPartsandComponents"%string, 1, 10, 1, 10, 55, 1);
  ("Class10SupplyCategoryMaterialToSupportNonMilitaryPrograms"%string, 1, 1, 1, 1, 1, 1);
  ("Class11SupplyCategorySupplies"%string, 1, 5, 1, 5, 15, 1);
  ("Class12SupplyCategorySlingLoads"%string, 1, 12, 1, 12, 78, 1);
  ("LifeSavingEquipment"%string, 1, 4, 1, 4, 10, 1);
  ("IslandSubcategory"%string, 2, 7, 0, 6, 21, 0);
  ("Link11MessageSubType"%string, 1, 5, 0, 4, 10, 0);
  ("Link11MessageTypeIdentifier"%string, 1, 7, 0, 6, 21, 0);
  ("Link11DataSignallingRate"%string, 1, 5, 0, 4, 10, 0);
  ("Link11SignalIntegrationInterval"%string, 1, 3, 0, 2, 3, 0);
  ("Link11SignalWaveform"%string, 1, 3, 0, 2, 3, 0);
  ("Link11_11BEncryptionFlag"%string, 1, 2, 0, 1, 1, 0);
  ("SISOSTD002Version"%string, 1, 2, 0, 1, 1, 0);
  ("Link11BLinkState"%string, 1, 5, 0, 4, 10, 0);
  ("Link11BModeofOperation"%string, 2, 4, 0, 3, 6, 0);
  ("Link11BMessageSubType"%string, 1, 3, 0, 2, 3, 0);
  ("Link11BDataSignalingRate"%string, 1, 4, 0, 5, 12, 0);
  ("Link11BModulationStandard"%string, 1, 2, 0, 1, 1, 0);
  ("CIGIExtensionPacketID"%string, 2, 5, 4096, 5000, 21390, 4096);
  ("Link16Version"%string, 1, 11, 0, 108, 541, 0);
  ("AircraftIDSource"%string, 1, 2, 0, 1, 1, 0);
  ("ClothingIRSignature"%string, 1, 4, 0, 3, 6, 0);
  ("DamageArea"%string, 1, 8, 0, 7, 28, 0)].
