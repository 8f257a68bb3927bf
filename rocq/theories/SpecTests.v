(** * The project's own test suite, restated (vocabulary for C66).
    The numbers below are the literals of the crate's [check_default_pdu_length] tests, in
    bits, copied from the test modules with file and line ([tools/tests.py] regenerates the
    list and compares). *)
From Coq Require Import String NArith List.
Import ListNotations.
Local Open Scope N_scope.

(** [const DEFAULT_LENGTH: u16 = <bits> / BITS_PER_BYTE] in the test of each class. *)
Definition tested_lengths : list (string * N) := [
  ("DesignatorPdu"%string, 704) (* src/distributed_emissions.rs:173 *);
  ("ElectromagneticEmissionsPdu"%string, 224) (* src/distributed_emissions.rs:203 *);
  ("UnderwaterAcousticPdu"%string, 256) (* src/distributed_emissions.rs:233 *);
  ("IFFPdu"%string, 704) (* src/distributed_emissions.rs:262 *);
  ("SupplementalEmissionPdu"%string, 224) (* src/distributed_emissions.rs:292 *);
  ("EntityStatePdu"%string, 1152) (* src/entity_information.rs:173 *);
  ("CollisionPdu"%string, 480) (* src/entity_information.rs:203 *);
  ("CollisionElasticPdu"%string, 800) (* src/entity_information.rs:234 *);
  ("EntityStateUpdatePdu"%string, 576) (* src/entity_information.rs:265 *);
  ("AttributePdu"%string, 256) (* src/entity_information.rs:295 *);
  ("AggregateStatePdu"%string, 1088) (* src/entity_management.rs:149 *);
  ("TransferOwnershipPdu"%string, 320) (* src/entity_management.rs:180 *);
  ("IsGroupOfPdu"%string, 320) (* src/entity_management.rs:210 *);
  ("IsPartOfPdu"%string, 416) (* src/entity_management.rs:240 *);
  ("InformationOperationsActionPdu"%string, 448) (* src/information_operations.rs:100 *);
  ("InformationOperationsReportPdu"%string, 320) (* src/information_operations.rs:135 *);
  ("ServiceRequestPdu"%string, 224) (* src/logistics.rs:153 *);
  ("ResupplyOfferPdu"%string, 224) (* src/logistics.rs:183 *);
  ("ResupplyReceivedPdu"%string, 224) (* src/logistics.rs:214 *);
  ("ResupplyCancelPdu"%string, 192) (* src/logistics.rs:244 *);
  ("RepairCompletePdu"%string, 224) (* src/logistics.rs:274 *);
  ("RepairResponsePdu"%string, 224) (* src/logistics.rs:304 *);
  ("MinefieldStatePdu"%string, 576) (* src/minefield.rs:155 *);
  ("MinefieldQueryPdu"%string, 320) (* src/minefield.rs:185 *);
  ("MinefieldDataPdu"%string, 352) (* src/minefield.rs:215 *);
  ("MinefieldResponseNackPdu"%string, 208) (* src/minefield.rs:246 *);
  ("TransmitterPdu"%string, 832) (* src/radio_communications.rs:181 *);
  ("SignalPdu"%string, 256) (* src/radio_communications.rs:211 *);
  ("ReceiverPdu"%string, 288) (* src/radio_communications.rs:241 *);
  ("IntercomSignalPdu"%string, 256) (* src/radio_communications.rs:271 *);
  ("IntercomControlPdu"%string, 320) (* src/radio_communications.rs:301 *);
  ("CreateEntityPdu"%string, 224) (* src/simulation_management.rs:274 *);
  ("RemoveEntityPdu"%string, 224) (* src/simulation_management.rs:304 *);
  ("StopFreezePdu"%string, 320) (* src/simulation_management.rs:334 *);
  ("StartResumePdu"%string, 352) (* src/simulation_management.rs:364 *);
  ("AcknowledgePdu"%string, 256) (* src/simulation_management.rs:394 *);
  ("ActionRequestPdu"%string, 320) (* src/simulation_management.rs:424 *);
  ("ActionResponsePdu"%string, 320) (* src/simulation_management.rs:453 *);
  ("DataPdu"%string, 320) (* src/simulation_management.rs:483 *);
  ("SetDataPdu"%string, 320) (* src/simulation_management.rs:513 *);
  ("DataQueryPdu"%string, 320) (* src/simulation_management.rs:543 *);
  ("EventReportPdu"%string, 320) (* src/simulation_management.rs:573 *);
  ("CommentPdu"%string, 256) (* src/simulation_management.rs:602 *);
  ("CreateEntityReliablePdu"%string, 256) (* src/simulation_management_with_reliability.rs:343 *);
  ("RemoveEntityReliablePdu"%string, 256) (* src/simulation_management_with_reliability.rs:374 *);
  ("StartResumeReliablePdu"%string, 384) (* src/simulation_management_with_reliability.rs:405 *);
  ("StopFreezeReliablePdu"%string, 320) (* src/simulation_management_with_reliability.rs:436 *);
  ("AcknowledgeReliablePdu"%string, 256) (* src/simulation_management_with_reliability.rs:466 *);
  ("ActionRequestReliablePdu"%string, 384) (* src/simulation_management_with_reliability.rs:497 *);
  ("ActionResponseReliablePdu"%string, 320) (* src/simulation_management_with_reliability.rs:528 *);
  ("DataQueryReliablePdu"%string, 352) (* src/simulation_management_with_reliability.rs:559 *);
  ("SetDataReliablePdu"%string, 320) (* src/simulation_management_with_reliability.rs:589 *);
  ("DataReliablePdu"%string, 320) (* src/simulation_management_with_reliability.rs:619 *);
  ("EventReportReliablePdu"%string, 320) (* src/simulation_management_with_reliability.rs:650 *);
  ("CommentReliablePdu"%string, 256) (* src/simulation_management_with_reliability.rs:680 *);
  ("RecordQueryReliablePdu"%string, 320) (* src/simulation_management_with_reliability.rs:711 *);
  ("SetRecordReliablePdu"%string, 320) (* src/simulation_management_with_reliability.rs:742 *);
  ("EnvironmentalProcessPdu"%string, 256) (* src/synthetic_environment.rs:178 *);
  ("GriddedDataPdu"%string, 512) (* src/synthetic_environment.rs:208 *);
  ("PointObjectStatePdu"%string, 704) (* src/synthetic_environment.rs:239 *);
  ("LinearObjectStatePdu"%string, 320) (* src/synthetic_environment.rs:269 *);
  ("ArealObjectStatePdu"%string, 384) (* src/synthetic_environment.rs:300 *);
  ("FirePdu"%string, 768) (* src/warfare.rs:145 *);
  ("DetonationPdu"%string, 832) (* src/warfare.rs:175 *);
  ("DirectedEnergyFirePdu"%string, 704) (* src/warfare.rs:206 *);
  ("EntityDamageStatusPdu"%string, 192) (* src/warfare.rs:237 *)
].
