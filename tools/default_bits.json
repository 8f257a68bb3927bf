{"DesignatorPdu": [704, "distributed_emissions.rs", 173, true], "ElectromagneticEmissionsPdu": [224, "distributed_emissions.rs", 203, true], "UnderwaterAcousticPdu": [256, "distributed_emissions.rs", 233, true], "IFFPdu": [704, "distributed_emissions.rs", 262, true], "SupplementalEmissionPdu": [224, "distributed_emissions.rs", 292, true], "EntityStatePdu": [1152, "entity_information.rs", 173, true], "CollisionPdu": [480, "entity_information.rs", 203, true], "CollisionElasticPdu": [800, "entity_information.rs", 234, true], "EntityStateUpdatePdu": [576, "entity_information.rs", 265, true], "AttributePdu": [256, "entity_information.rs", 295, true], "AggregateStatePdu": [1088, "entity_management.rs", 149, true], "TransferOwnershipPdu": [320, "entity_management.rs", 180, true], "IsGroupOfPdu": [320, "entity_management.rs", 210, true], "IsPartOfPdu": [416, "entity_management.rs", 240, true], "InformationOperationsActionPdu": [448, "information_operations.rs", 100, true], "InformationOperationsReportPdu": [320, "information_operations.rs", 135, true], "ServiceRequestPdu": [224, "logistics.rs", 153, true], "ResupplyOfferPdu": [224, "logistics.rs", 183, true], "ResupplyReceivedPdu": [224, "logistics.rs", 214, true], "ResupplyCancelPdu": [192, "logistics.rs", 244, true], "RepairCompletePdu": [224, "logistics.rs", 274, true], "RepairResponsePdu": [224, "logistics.rs", 304, true], "MinefieldStatePdu": [576, "minefield.rs", 155, true], "MinefieldQueryPdu": [320, "minefield.rs", 185, true], "MinefieldDataPdu": [352, "minefield.rs", 215, true], "MinefieldResponseNackPdu": [208, "minefield.rs", 246, true], "TransmitterPdu": [832, "radio_communications.rs", 181, true], "SignalPdu": [256, "radio_communications.rs", 211, true], "ReceiverPdu": [288, "radio_communications.rs", 241, true], "IntercomSignalPdu": [256, "radio_communications.rs", 271, true], "IntercomControlPdu": [320, "radio_communications.rs", 301, true], "CreateEntityPdu": [224, "simulation_management.rs", 274, true], "RemoveEntityPdu": [224, "simulation_management.rs", 304, true], "StopFreezePdu": [320, "simulation_management.rs", 334, true], "StartResumePdu": [352, "simulation_management.rs", 364, true], "AcknowledgePdu": [256, "simulation_management.rs", 394, true], "ActionRequestPdu": [320, "simulation_management.rs", 424, true], "ActionResponsePdu": [320, "simulation_management.rs", 453, true], "DataPdu": [320, "simulation_management.rs", 483, true], "SetDataPdu": [320, "simulation_management.rs", 513, true], "DataQueryPdu": [320, "simulation_management.rs", 543, true], "EventReportPdu": [320, "simulation_management.rs", 573, true], "CommentPdu": [256, "simulation_management.rs", 602, true], "CreateEntityReliablePdu": [256, "simulation_management_with_reliability.rs", 343, true], "RemoveEntityReliablePdu": [256, "simulation_management_with_reliability.rs", 374, true], "StartResumeReliablePdu": [384, "simulation_management_with_reliability.rs", 405, true], "StopFreezeReliablePdu": [320, "simulation_management_with_reliability.rs", 436, true], "AcknowledgeReliablePdu": [256, "simulation_management_with_reliability.rs", 466, true], "ActionRequestReliablePdu": [384, "simulation_management_with_reliability.rs", 497, true], "ActionResponseReliablePdu": [320, "simulation_management_with_reliability.rs", 528, true], "DataQueryReliablePdu": [352, "simulation_management_with_reliability.rs", 559, true], "SetDataReliablePdu": [320, "simulation_management_with_reliability.rs", 589, true], "DataReliablePdu": [320, "simulation_management_with_reliability.rs", 619, true], "EventReportReliablePdu": [320, "simulation_management_with_reliability.rs", 650, true], "CommentReliablePdu": [256, "simulation_management_with_reliability.rs", 680, true], "RecordQueryReliablePdu": [320, "simulation_management_with_reliability.rs", 711, true], "SetRecordReliablePdu": [320, "simulation_management_with_reliability.rs", 742, true], "EnvironmentalProcessPdu": [256, "synthetic_environment.rs", 178, true], "GriddedDataPdu": [512, "synthetic_environment.rs", 208, true], "PointObjectStatePdu": [704, "synthetic_environment.rs", 239, true], "LinearObjectStatePdu": [320, "synthetic_environment.rs", 269, true], "ArealObjectStatePdu": [384, "synthetic_environment.rs", 300, true], "FirePdu": [768, "warfare.rs", 145, true], "DetonationPdu": [832, "warfare.rs", 175, true], "DirectedEnergyFirePdu": [704, "warfare.rs", 206, true], "EntityDamageStatusPdu": [192, "warfare.rs", 237, true]}