(** * Enumeration values of SISO-REF-010 (C82).
    The standard's numbers under the names by which this API writes them, set down from knowledge
    of the standard (which was not at hand), not generated from the repository. [true]: the
    list is meant to have all variants of the enumeration; [false]: a selection. *)
From Coq Require Import String List NArith.
Import ListNotations.
Local Open Scope N_scope.
Local Open Scope string_scope.

Definition siso : list (string * bool * list (string * N)) := [
  ("ProtocolVersion", true, [
    ("Other", 0); ("DIS_PDUv1", 1); ("IEEE1278_1993", 2); ("DIS_PDUv2_Third_Draft", 3); ("DIS_PDUv2_Fourth_Draft_Revised", 4);
    ("IEEE1278_1_1995", 5); ("IEEE1278_1A_1998", 6); ("IEEE1278_1_2012", 7)]);
  ("PduType", true, [
    ("Other", 0); ("EntityState", 1); ("Fire", 2); ("Detonation", 3); ("Collision", 4); ("ServiceRequest", 5); ("ResupplyOffer", 6);
    ("ResupplyReceived", 7); ("ResupplyCancel", 8); ("RepairComplete", 9); ("RepairResponse", 10); ("CreateEntity", 11);
    ("RemoveEntity", 12); ("StartResume", 13); ("StopFreeze", 14); ("Acknowledge", 15); ("ActionRequest", 16); ("ActionResponse", 17);
    ("DataQuery", 18); ("SetData", 19); ("Data", 20); ("EventReport", 21); ("Comment", 22); ("ElectromagneticEmission", 23);
    ("Designator", 24); ("Transmitter", 25); ("Signal", 26); ("Receiver", 27); ("IFF", 28); ("UnderwaterAcoustic", 29);
    ("SupplementalEmission", 30); ("IntercomSignal", 31); ("IntercomControl", 32); ("AggregateState", 33); ("IsGroupOf", 34);
    ("TransferOwnership", 35); ("IsPartOf", 36); ("MinefieldState", 37); ("MinefieldQuery", 38); ("MinefieldData", 39);
    ("MinefieldResponseNack", 40); ("EnvironmentalProcess", 41); ("GriddedData", 42); ("PointObjectState", 43); ("LinearObjectState", 44);
    ("ArealObjectState", 45); ("TimeSpacePositionInformation", 46); ("Appearance", 47); ("ArticulatedParts", 48); ("LiveEntityFire", 49);
    ("LiveEntityDetonation", 50); ("CreateEntityReliable", 51); ("RemoveEntityReliable", 52); ("StartResumeReliable", 53);
    ("StopFreezeReliable", 54); ("AcknowledgeReliable", 55); ("ActionRequestReliable", 56); ("ActionResponseReliable", 57);
    ("DataQueryReliable", 58); ("SetDataReliable", 59); ("DataReliable", 60); ("EventReportReliable", 61); ("CommentReliable", 62);
    ("RecordReliable", 63); ("SetRecordReliable", 64); ("RecordQueryReliable", 65); ("CollisionElastic", 66); ("EntityStateUpdate", 67);
    ("DirectedEnergyFire", 68); ("EntityDamageStatus", 69); ("InformationOperationsAction", 70); ("InformationOperationsReport", 71);
    ("Attribute", 72)]);
  ("ProtocolFamily", true, [
    ("Other", 0); ("EntityInformation", 1); ("Warfare", 2); ("Logistics", 3); ("RadioCommunications", 4); ("SimulationManagement", 5);
    ("DistributedEmissionRegeneration", 6); ("EntityManagement", 7); ("Minefield", 8); ("SyntheticEnvironment", 9);
    ("SimulationManagementWithReliability", 10); ("LiveEntityInformationInteraction", 11); ("NonRealTime", 12);
    ("InformationOperations", 13)]);
  ("ForceId", true, [
    ("Other", 0); ("Friendly", 1); ("Opposing", 2); ("Neutral", 3); ("Friendly2", 4); ("Opposing2", 5); ("Neutral2", 6); ("Friendly3", 7);
    ("Opposing3", 8); ("Neutral3", 9); ("Friendly4", 10); ("Opposing4", 11); ("Neutral4", 12); ("Friendly5", 13); ("Opposing5", 14);
    ("Neutral5", 15); ("Friendly6", 16); ("Opposing6", 17); ("Neutral6", 18); ("Friendly7", 19); ("Opposing7", 20); ("Neutral7", 21);
    ("Friendly8", 22); ("Opposing8", 23); ("Neutral8", 24); ("Friendly9", 25); ("Opposing9", 26); ("Neutral9", 27); ("Friendly10", 28);
    ("Opposing10", 29); ("Neutral10", 30)]);
  ("EntityKind", true, [
    ("Other", 0); ("Platform", 1); ("Munition", 2); ("LifeForm", 3); ("Environmental", 4); ("CulturalFeature", 5); ("Supply", 6);
    ("Radio", 7); ("Expendable", 8); ("SensorEmitter", 9)]);
  ("Country", false, [
    ("Other", 0); ("Australia", 13); ("Brazil", 29); ("Canada", 39); ("Denmark", 57); ("Egypt", 62); ("Finland", 70); ("France", 71);
    ("Germany", 78); ("Greece", 82); ("India", 99); ("Iran", 101); ("Iraq", 102); ("Israel", 105); ("Italy", 106); ("Japan", 110);
    ("Mexico", 142); ("Netherlands", 153); ("Norway", 163); ("Poland", 175); ("SouthAfrica", 197); ("Spain", 198); ("Sweden", 205);
    ("Turkey", 218); ("Russia", 222); ("UnitedArabEmirates", 223); ("UnitedKingdomofGreatBritainandNorthernIreland", 224);
    ("UnitedStatesofAmerica", 225); ("Ukraine", 265)]);
  ("MunitionKind", true, [
    ("Other", 0); ("AntiAir", 1); ("AntiArmor", 2); ("AntiGuidedWeapon", 3); ("AntiRadar", 4); ("AntiSatellite", 5); ("AntiShip", 6);
    ("AntiSubmarine", 7); ("AntiPersonnel", 8); ("BattlefieldSupport", 9); ("Strategic", 10); ("Tactical", 11); ("DirectedEnergyWeapon", 12)]);
  ("LandDomainCategories", false, [
    ("Other", 0); ("Tank", 1); ("ArmoredFightingVehicle", 2); ("ArmoredUtilityVehicle", 3); ("SelfPropelledArtillery", 4);
    ("TowedArtillery", 5); ("SmallWheeledUtilityVehicle", 6); ("LargeWheeledUtilityVehicle", 7); ("SmallTrackedUtilityVehicle", 8);
    ("LargeTrackedUtilityVehicle", 9); ("Mortar", 10); ("MinePlow", 11); ("MineRake", 12); ("MineRoller", 13); ("CargoTrailer", 14);
    ("FuelTrailer", 15); ("GeneratorTrailer", 16); ("WaterTrailer", 17); ("EngineerEquipment", 18)]);
  ("AirDomainCategories", false, [
    ("Other", 0); ("FighterAirDefense", 1); ("AttackStrike", 2); ("Bomber", 3); ("CargoTanker", 4); ("ASWPatrolObservation", 5);
    ("ElectronicWarfare", 6); ("Reconnaissance", 7); ("SurveillanceC2", 8); ("AirSeaRescue", 9); ("AttackHelicopter", 20);
    ("UtilityHelicopter", 21); ("AntiSubmarineWarfarePatrolHelicopter", 22); ("CargoHelicopter", 23); ("ObservationHelicopter", 24);
    ("SpecialOperationsHelicopter", 25); ("TrainingHelicopter", 26); ("Trainer", 40); ("Unmanned", 50);
    ("NonCombatantCommercialAircraft", 57)]);
  ("SurfaceDomainCategories", false, [
    ("Other", 0); ("Carrier", 1); ("CommandShipCruiser", 2); ("GuidedMissileCruiser", 3); ("GuidedMissileDestroyer", 4); ("Destroyer", 5);
    ("GuidedMissileFrigate", 6); ("LightPatrolCraft", 7); ("MineCountermeasureShipCraft", 8); ("DockLandingShip", 9);
    ("TankLandingShip", 10); ("LandingCraft", 11); ("LightCarrier", 12); ("CruiserHelicopterCarrier", 13); ("Hydrofoil", 14);
    ("AirCushionSurfaceEffect", 15); ("Auxiliary", 16); ("AuxiliaryMerchantMarine", 17); ("Utility", 18); ("Frigate", 50);
    ("Battleship", 51); ("HeavyCruiser", 52)]);
  ("DeadReckoningAlgorithm", true, [
    ("Other", 0); ("StaticNonmovingEntity", 1); ("DRMConstantVelocityLowAccelerationLinearMotionEntity", 2);
    ("DRMConstantVelocityLowAccelerationLinearMotionEntitywithExtrapolationofOrientation", 3);
    ("DRMHighSpeedorManeuveringEntitywithExtrapolationofOrientation", 4); ("DRMHighSpeedorManeuveringEntity", 5);
    ("DRMSimilartoFPWexceptinBodyCoordinates", 6); ("DRMSimilartoRPWexceptinBodyCoordinates", 7);
    ("DRMSimilartoRVWexceptinBodyCoordinates", 8); ("DRMSimilartoFVWexceptinBodyCoordinates", 9)]);
  ("EntityMarkingCharacterSet", true, [
    ("Unused", 0); ("ASCII", 1); ("USArmyMarking", 2); ("DigitChevron", 3)]);
  ("VariableParameterRecordType", true, [
    ("ArticulatedPart", 0); ("AttachedPart", 1); ("Separation", 2); ("EntityType", 3); ("EntityAssociation", 4)]);
  ("ArticulatedPartsTypeMetric", true, [
    ("NotSpecified", 0); ("Position", 1); ("PositionRate", 2); ("Extension", 3); ("ExtensionRate", 4); ("X", 5); ("XRate", 6); ("Y", 7);
    ("YRate", 8); ("Z", 9); ("ZRate", 10); ("Azimuth", 11); ("AzimuthRate", 12); ("Elevation", 13); ("ElevationRate", 14);
    ("Rotation1", 15); ("RotationRate", 16)]);
  ("DetonationResult", true, [
    ("Other", 0); ("EntityImpact", 1); ("EntityProximateDetonation", 2); ("GroundImpact", 3); ("GroundProximateDetonation", 4);
    ("Detonation", 5); ("NoneorNoDetonation", 6); ("HEhitsmall", 7); ("HEhitmedium", 8); ("HEhitlarge", 9); ("Armorpiercinghit", 10);
    ("Dirtblastsmall", 11); ("Dirtblastmedium", 12); ("Dirtblastlarge", 13); ("Waterblastsmall", 14); ("Waterblastmedium", 15);
    ("Waterblastlarge", 16); ("Airhit", 17); ("Buildinghitsmall", 18); ("Buildinghitmedium", 19); ("Buildinghitlarge", 20);
    ("Mineclearinglinecharge", 21); ("Environmentobjectimpact", 22); ("Environmentobjectproximatedetonation", 23); ("WaterImpact", 24);
    ("AirBurst", 25); ("Killwithfragmenttype1", 26); ("Killwithfragmenttype2", 27); ("Killwithfragmenttype3", 28);
    ("Killwithfragmenttype1afterflyoutfailure", 29); ("Killwithfragmenttype2afterflyoutfailure", 30); ("Missduetoflyoutfailure", 31);
    ("Missduetoendgamefailure", 32); ("Missduetoflyoutandendgamefailure", 33)]);
  ("ServiceRequestServiceTypeRequested", true, [
    ("Other", 0); ("Resupply", 1); ("Repair", 2); ("AerialRefuelingHighFidelity", 3); ("AerialRefuelingLowFidelity", 4)]);
  ("RepairCompleteRepair", false, [
    ("NoRepairsPerformed", 0); ("MotorEngine", 10); ("Starter", 20); ("Alternator", 30); ("Generator", 40); ("Battery", 50);
    ("EngineCoolantLeak", 60); ("FuelFilter", 70); ("TransmissionOilLeak", 80); ("EngineOilLeak", 90); ("Pumps", 100);
    ("Transmission", 120); ("Brakes", 130); ("SuspensionSystem", 140); ("OilFilter", 150); ("Hull", 1000); ("Airframe", 1010);
    ("TruckBody", 1020); ("TankBody", 1030); ("TrailerBody", 1040); ("Turret", 1050); ("Propeller", 1500); ("Wheels", 1540);
    ("Tire", 1550); ("Track", 1560); ("GunElevationDrive", 2000); ("Radios", 5000); ("Computers", 5500); ("FireControlSystems", 6500);
    ("AirSupply", 8000); ("Winches", 9020); ("Lifeboats", 10000)]);
  ("RepairResponseRepairResult", true, [
    ("Other", 0); ("RepairEnded", 1); ("InvalidRepair", 2); ("RepairInterrupted", 3); ("ServiceCanceledByTheSupplier", 4)]);
  ("Reason", true, [
    ("Other", 0); ("Recess", 1); ("Termination", 2); ("SystemFailure", 3); ("SecurityViolation", 4); ("EntityReconstitution", 5);
    ("StopForReset", 6); ("StopForRestart", 7); ("AbortTrainingReturnToTacticalOperations", 8)]);
  ("AcknowledgeFlag", true, [
    ("CreateEntity", 1); ("RemoveEntity", 2); ("StartResume", 3); ("StopFreeze", 4); ("TransferOwnership", 5)]);
  ("AcknowledgeResponseFlag", true, [
    ("Other", 0); ("AbleToComply", 1); ("UnableToComply", 2); ("PendingOperatorAction", 3)]);
  ("ActionResponseRequestStatus", true, [
    ("Other", 0); ("Pending", 1); ("Executing", 2); ("PartiallyComplete", 3); ("Complete", 4); ("RequestRejected", 5);
    ("RetransmitRequestNow", 6); ("RetransmitRequestLater", 7); ("InvalidTimeParameters", 8); ("SimulationTimeExceeded", 9);
    ("RequestDone", 10); ("TACCSFLOSReplyTypeOne", 100); ("TACCSFLOSReplyTypeTwo", 101); ("JoinExerciseRequestRejected", 201)]);
  ("EventType", false, [
    ("Other", 0); ("RanOutOfAmmunition", 2); ("KilledInAction", 3); ("Damage", 4); ("MobilityDisabled", 5); ("FireDisabled", 6);
    ("RanOutOfFuel", 7); ("EntityInitialization", 8); ("RequestForIndirectFireOrCASMission", 9); ("IndirectFireOrCASFire", 10);
    ("MinefieldEntry", 11); ("MinefieldDetonation", 12); ("VehicleMasterPowerOn", 13); ("VehicleMasterPowerOff", 14);
    ("AggregateStateChangeRequested", 15); ("PreventCollisionDetonation", 16); ("OwnershipReport", 17); ("RadarPerception", 18);
    ("Detect", 19)]);
  ("RequiredReliabilityService", true, [
    ("Acknowledged", 0); ("Unacknowledged", 1)]);
  ("EmitterSystemFunction", false, [
    ("Other", 0); ("MultiFunction", 1); ("EarlyWarningSurveillance", 2); ("HeightFinder", 3); ("FireControl", 4);
    ("AcquisitionDetection", 5); ("Tracker", 6); ("GuidanceIllumination", 7); ("RangeOnly", 9); ("RadarAltimeter", 10); ("Imaging", 11);
    ("MotionDetection", 12); ("Navigation", 13); ("WeatherMeteorological", 14); ("Instrumentation", 15); ("AAAFireControl", 17);
    ("AirSearchBomb", 18); ("AirIntercept", 19); ("Altimeter", 20); ("AirMapping", 21); ("AirTrafficControl", 22); ("Beacon", 23);
    ("BattlefieldSurveillance", 24); ("GroundControlApproach", 25); ("GroundControlIntercept", 26); ("CoastalSurveillance", 27);
    ("DecoyMimic", 28); ("DataTransmission", 29); ("EarthSurveillance", 30); ("GunLayBeacon", 31); ("GroundMapping", 32);
    ("HarborSurveillance", 33); ("IFF", 34); ("InstrumentLandingSystem", 35); ("IonosphericSound", 36); ("Interrogator", 37)]);
  ("DesignatorCode", true, [
    ("Other", 0)]);
  ("UAStateChangeUpdateIndicator", true, [
    ("StateUpdate", 0); ("ChangedDataUpdate", 1)]);
  ("UAAcousticSystemName", true, [
    ("Other", 0); ("ANBQQ5", 1); ("ANSSQ62", 2); ("ANSQS23", 3); ("ANSQS26", 4); ("ANSQS53", 5); ("ALFS", 6); ("LFA", 7); ("ANAQS901", 8);
    ("ANAQS902", 9)]);
  ("UAAcousticEmitterSystemFunction", true, [
    ("Other", 0); ("Platformsearchdetecttrack", 1); ("Navigation", 2); ("Minehunting", 3); ("Weaponsearchdetecttrackdetect", 4)]);
  ("UAPassiveParameterIndex", true, [
    ("Other", 0)]);
  ("TransmitterTransmitState", true, [
    ("Off", 0); ("Onbutnottransmitting", 1); ("Onandtransmitting", 2)]);
  ("TransmitterInputSource", true, [
    ("Other", 0); ("Pilot", 1); ("Copilot", 2); ("FirstOfficer", 3); ("Driver", 4); ("Loader", 5); ("Gunner", 6); ("Commander", 7);
    ("DigitalDataDevice", 8); ("Intercom", 9); ("AudioJammer", 10); ("DataJammer", 11); ("GPSJammer", 12); ("GPSMeaconer", 13);
    ("SATCOMUplinkJammer", 14)]);
  ("TransmitterCryptoSystem", false, [
    ("NoEncryptionDevice", 0); ("KY28", 1); ("KY58", 2); ("NarrowSpectrumSecureVoice", 3); ("WideSpectrumSecureVoice", 4);
    ("SINCGARSICOM", 5); ("KY75", 6); ("KY100", 7); ("KY57", 8); ("KYV5", 9)]);
  ("TransmitterAntennaPatternType", true, [
    ("Isotropic", 0); ("Beam", 1); ("Sphericalharmonic", 2); ("TransmitterRadiationVolume", 4); ("BeamandTransmitterRadiationVolume", 5);
    ("Omnidirectional", 6)]);
  ("SignalTDLType", false, [
    ("Other", 0); ("PADIL", 1); ("NATOLink1", 2); ("ATDL1", 3); ("Link11B", 4); ("SituationalAwarenessDataLink", 5);
    ("Link16LegacyFormatJTIDSTADILJ", 6); ("Link16LegacyFormatJTIDSFDLTADILJ", 7); ("Link11", 8); ("IJMS", 9); ("Link4A", 10);
    ("Link4C", 11); ("TIBS", 12); ("SINCGARS", 24); ("HAVEQUICKI", 25); ("HAVEQUICKII", 26); ("SATURN", 27);
    ("Link16StandardizedFormat", 100); ("Link16EnhancedDataRate", 101); ("Link22", 103); ("VariableMessageFormat", 112)]);
  ("ReceiverReceiverState", true, [
    ("Off", 0); ("Onbutnotreceiving", 1); ("Onandreceiving", 2)]);
  ("IntercomControlControlType", true, [
    ("Reserved", 0); ("Status", 1); ("RequestAcknowledgeRequired", 2); ("RequestNoAcknowledge", 3); ("AckRequestGranted", 4);
    ("NackRequestDenied", 5)]);
  ("IntercomControlCommand", true, [
    ("NoCommand", 0); ("Status", 1); ("Connect", 2); ("Disconnect", 3); ("Reset", 4); ("On", 5); ("Off", 6)]);
  ("IntercomControlTransmitLineState", true, [
    ("TransmitLineStatenotapplicable", 0); ("NotTransmitting", 1); ("Transmitting", 2)]);
  ("MinefieldSensorTypes", true, [
    ("Other", 0); ("Optical", 1); ("FLIR", 2); ("RADAR", 3); ("Magnetic", 4); ("Laser", 5); ("SONAR", 6); ("Physical", 7);
    ("Multispectral", 8)]);
  ("AggregateStateAggregateState", true, [
    ("Other", 0); ("Aggregated", 1); ("Disaggregated", 2); ("Fullydisaggregated", 3); ("Pseudodisaggregated", 4);
    ("Partiallydisaggregated", 5)]);
  ("AggregateStateFormation", true, [
    ("Other", 0); ("Assembly", 1); ("Vee", 2); ("Wedge", 3); ("Line", 4); ("Column", 5)]);
  ("IsGroupOfGroupedEntityCategory", true, [
    ("Undefined", 0); ("BasicGroundCombatVehicle", 1); ("EnhancedGroundCombatVehicle", 2); ("BasicGroundCombatSoldier", 3);
    ("EnhancedGroundCombatSoldier", 4); ("BasicRotorWingAircraft", 5); ("EnhancedRotorWingAircraft", 6); ("BasicFixedWingAircraft", 7);
    ("EnhancedFixedWingAircraft", 8); ("GroundLogisticsVehicle", 9)]);
  ("TransferControlTransferType", true, [
    ("Other", 0); ("PushTransferEntity", 1); ("AutomaticPullTransferEntity", 2); ("PushTransferEnvironmentalProcess", 4);
    ("AutomaticPullTransferEnvironmentalProcess", 5); ("CancelTransfer", 7); ("ManualPullTransferEntity", 8);
    ("ManualPullTransferEnvironmentalProcess", 9); ("RemoveEntity", 10)]);
  ("GriddedDataCoordinateSystem", true, [
    ("RightHandedCartesian", 0); ("LeftHandedCartesian", 1); ("LatitudeLongitudeHeight", 2); ("LatitudeLongitudeDepth", 3)]);
  ("GriddedDataConstantGrid", true, [
    ("Constantgrid", 0); ("Updatedgrid", 1)]);
  ("GriddedDataSampleType", true, [
    ("NotSpecified", 0)]);
  ("GriddedDataDataRepresentation", true, [
    ("Type0", 0); ("Type1", 1); ("Type2", 2)]);
  ("IOActionIOWarfareType", true, [
    ("NoStatement", 0); ("ElectronicWarfare", 1); ("ComputerNetworkOperations", 2); ("PsychologicalOperations", 3);
    ("MilitaryDeception", 4); ("OperationsSecurity", 5); ("PhysicalAttack", 6)]);
  ("IOActionIOActionType", true, [
    ("NoStatement", 0); ("IOAttackProfileData", 1); ("IOAttackComputedEffects", 2); ("IntentBasedEW", 3);
    ("IntentBasedEWComputedEffects", 4)]);
  ("IOActionIOActionPhase", true, [
    ("NoStatement", 0); ("StartAttackProfile", 1); ("EndAttackProfile", 2); ("ContinueAttackProfilewithChanges", 3);
    ("StartAttackEffects", 4); ("EndAttackedEffects", 5); ("ContinueAttackEffectswithChanges", 6)]);
  ("IOReportIOReportType", true, [
    ("NoStatement", 0); ("InitialReport", 1); ("UpdateReport", 2); ("FinalReport", 3)]);
  ("EEAttributeStateIndicator", true, [
    ("HeartbeatUpdate", 0); ("ChangedData", 1); ("HasCeased", 2)]);
  ("TransferredEntityIndicator", true, [
    ("NoDifference", 0); ("Difference", 1)]);
  ("LVCIndicator", true, [
    ("NoStatement", 0); ("Live", 1); ("Virtual", 2); ("Constructive", 3)]);
  ("CoupledExtensionIndicator", true, [
    ("NotCoupled", 0); ("Coupled", 1)]);
  ("FireTypeIndicator", true, [
    ("Munition", 0); ("Expendable", 1)]);
  ("DetonationTypeIndicator", true, [
    ("Munition", 0); ("Expendable", 1); ("NonMunitionExplosion", 2)]);
  ("RadioAttachedIndicator", true, [
    ("NoStatement", 0); ("Unattached", 1); ("Attached", 2)]);
  ("IntercomAttachedIndicator", true, [
    ("NoStatement", 0); ("Unattached", 1); ("Attached", 2)]);
  ("PduStatusIFFSimulationMode", true, [
    ("Regeneration", 0); ("Interactive", 1)]);
  ("ActiveInterrogationIndicator", true, [
    ("NotActive", 0); ("Active", 1)]);
  ("DEFirePulseShape", true, [
    ("Other", 0); ("SquareWave", 1); ("ContinuousWave", 2); ("Gaussian", 3)]);
  ("ComponentIdentification", true, [
    ("EntityCenter", 0); ("EntityStructure", 1); ("ControlSystem", 2); ("ControlSurface", 3); ("EnginePropulsionSystem", 4);
    ("CrewMember", 5); ("Fuse", 6); ("AcquisitionSensor", 7); ("TrackingSensor", 8); ("FuelTankSolidRocketMotor", 9)]);
  ("ComponentDamageStatus", true, [
    ("NoDamage", 0); ("MinorDamage", 1); ("MediumDamage", 2); ("MajorDamage", 3); ("Destroyed", 4)]);
  ("ComponentVisualSmokeColor", true, [
    ("NoSmoke", 0); ("White", 1); ("Gray", 2); ("Black", 3)]);
  ("RecordQueryREventType", true, [
    ("Periodic", 0); ("InternalEntityStateData", 1)]);
  ("MinefieldStateProtocolMode", true, [
    ("HeartbeatMode", 0); ("QRPMode", 1)]);
  ("GridAxisDescriptorAxisType", true, [
    ("RegularAxis", 0); ("IrregularAxis", 1)]);
  ("DISLiveEntitySubprotocolNumber", true, [
    ("NoSubprotocol", 0)])
].
