# IEEE 1278.1-2012 layouts, written from the standard's tables (clause 7), NOT read from /repo.
R={}
R['EntityIdentifier']="Site Number=simulation_address.site_id:2; Application Number=simulation_address.application_id:2; Entity Number=entity_id:2"
R['EventIdentifier']="Site Number=simulation_address.site_id:2; Application Number=simulation_address.application_id:2; Event Number=event_identifier:2"
R['SimulationIdentifier']="Site Number=simulation_address.site_id:2; Application Number=simulation_address.application_id:2; Reference Number=reference_number:2"
R['MinefieldIdentifier']="Site Number=simulation_address.site_id:2; Application Number=simulation_address.application_id:2; Minefield Number=minefield_number:2"
R['MinefieldAsEntity']="Site Number=simulation_address.site_id:2; Application Number=simulation_address.application_id:2; Minefield Number=entity_id:2"
R['ObjectAsEntity']="Site Number=simulation_address.site_id:2; Application Number=simulation_address.application_id:2; Object Number=entity_id:2"
R['ObjectIdentifier']="Site Number=simulation_address.site_id:2; Application Number=simulation_address.application_id:2; Object Number=object_number:2"
R['AggregateIdentifier']="Site Number=site:2; Application Number=application:2; Aggregate Number=aggregate_id:2"
R['SimulationAddress']="Site Number=site_id:2; Application Number=application_id:2"
R['EntityCoordinateVector']="x-coordinate=x_coordinate:4; y-coordinate=y_coordinate:4; z-coordinate=z_coordinate:4"
R['Vector']="First Vector Component=first_vector_component:4; Second Vector Component=second_vector_component:4; Third Vector Component=third_vector_component:4"
R['Dimensions']="x=x:4; y=y:4; z=z:4"
R['WorldCoordinates']="X-coordinate=x:8; Y-coordinate=y:8; Z-coordinate=z:8"
R['EulerAngles']="Psi=psi:4; Theta=theta:4; Phi=phi:4"
R['EntityType']="Kind=kind:1; Domain=domain:1; Country=country:2; Category=category:1; Subcategory=subcategory:1; Specific=specific:1; Extra=extra:1"
R['RadioEntityType']="Entity Kind=entity_kind:1; Domain=domain:1; Country=country:2; Category=category:1; Nomenclature Version=nomenclature_version:1; Nomenclature=nomenclature:2"
R['ObjectType']="Domain=domain:1; Object Kind=object_kind:1; Category=category:1; Subcategory=subcategory:1"
R['ModulationType']="Spread Spectrum=spread_spectrum:2; Major Modulation=major:2; Detail=detail:2; Radio System=system:2"
R['MunitionDescriptor']="Munition Type Kind=munition_type.kind:1; Munition Type Domain=munition_type.domain:1; Munition Type Country=munition_type.country:2; Munition Type Category=munition_type.category:1; Munition Type Subcategory=munition_type.subcategory:1; Munition Type Specific=munition_type.specific:1; Munition Type Extra=munition_type.extra:1; Warhead=warhead:2; Fuse=fuse:2; Quantity=quantity:2; Rate=rate:2"
R['ClockTime']="Hour=hour:4; Time Past the Hour=time_past_hour:4"
R['Relationship']="Nature=nature:2; Position=position:2"
R['NamedLocation']="Station Name=station_name:2; Station Number=station_number:2"
R['SystemIdentifier']="System Type=system_type:2; System Name=system_name:2; System Mode=system_mode:1; Change/Options=change_options:1"
R['FundamentalOperationalData']="System Status=system_status:1; Data Field 1=data_field1:1; Information Layers=information_layers:1; Data Field 2=data_field2:1; Parameter 1=parameter1:2; Parameter 2=parameter2:2; Parameter 3=parameter3:2; Parameter 4=parameter4:2; Parameter 5=parameter5:2; Parameter 6=parameter6:2"
R['LayerHeader']="Layer Number=layer_number:1; Layer Specific Information=layer_specific_information:1; Length=length:2"
R['BeamData']="Beam Azimuth Center=beam_azimuth_center:4; Beam Azimuth Sweep=beam_azimuth_sweep:4; Beam Elevation Center=beam_elevation_center:4; Beam Elevation Sweep=beam_elevation_sweep:4; Beam Sweep Sync=beam_sweep_sync:4"
R['SecondaryOperationalData']="Operational Data 1=operational_data1:1; Operational Data 2=operational_data2:1; Number of IFF Fundamental Parameter Records=number_of_iff_fundamental_parameter_records:2"
R['DeadReckoningParameters']="Dead Reckoning Algorithm=dead_reckoning_algorithm:1; "+"".join("Other Parameters=dead_reckoning_other_parameters:1; " for _ in range(15))+"; ".join(f"Entity Linear Acceleration {a}=entity_linear_acceleration.{b}_vector_component:4" for a,b in (('x','first'),('y','second'),('z','third')))+"; "+"; ".join(f"Entity Angular Velocity {a}=entity_angular_velocity.rate_about_{a}_axis:4" for a in 'xyz')
R['EntityMarking']="Character Set=entity_marking_character_set:1; "+"; ".join("Character String=entity_marking_string:1" for _ in range(11))
R['AggregateMarking']="Character Set=character_set:1; "+"; ".join("Character String=characters:1" for _ in range(31))
R['RecordSets']="Number of Record Sets=number_of_record_sets:4"
R['StandardRecords']="Number of Standard Variable Records=number_of_standard_variable_records:2"
E='EntityIdentifier'
orr="Originating Entity ID=originating_entity_id:E; Receiving Entity ID=receiving_entity_id:E; "
rel="Required Reliability Service=required_reliability_service:1; Padding=padding:1; Padding=padding2:2; "
nn="Number of Fixed Datum Records=number_of_fixed_datum_records:4; Number of Variable Datum Records=number_of_variable_datum_records:4"
req="Request ID=request_id:4; "
P={}
P['EntityStatePdu']="Entity ID=entity_id:E; Force ID=force_id:1; Number of Variable Parameter Records=number_of_articulation_parameters:1; Entity Type=entity_type:EntityType; Alternate Entity Type=alternative_entity_type:EntityType; Entity Linear Velocity=entity_linear_velocity:Vector; Entity Location=entity_location:WorldCoordinates; Entity Orientation=entity_orientation:EulerAngles; Entity Appearance=entity_appearance:4; Dead Reckoning Parameters=dead_reckoning_parameters:DeadReckoningParameters; Entity Marking=entity_marking:EntityMarking; Capabilities=entity_capabilities:4"
P['FirePdu']="Firing Entity ID=firing_entity_id:E; Target Entity ID=target_entity_id:E; Munition Expendable ID=munition_expendable_id:E; Event ID=event_id:EventIdentifier; Fire Mission Index=fire_mission_index:4; Location in World Coordinates=location_in_world_coordinates:WorldCoordinates; Descriptor=descriptor:MunitionDescriptor; Velocity=velocity:Vector; Range=range:4"
P['DetonationPdu']="Firing Entity ID=firing_entity_id:E; Target Entity ID=target_entity_id:E; Exploding Entity ID=exploding_entity_id:E; Event ID=event_id:EventIdentifier; Velocity=velocity:Vector; Location in World Coordinates=location_in_world_coordinates:WorldCoordinates; Descriptor=descriptor:MunitionDescriptor; Location in Entity's Coordinates=location_in_entitys_coordinates:EntityCoordinateVector; Detonation Result=detonation_result:1; Number of Variable Parameter Records=number_of_variable_parameters:1; Padding=padding:2"
P['CollisionPdu']="Issuing Entity ID=issuing_entity_id:E; Colliding Entity ID=colliding_entity_id:E; Event ID=event_id:EventIdentifier; Collision Type=collision_type:1; Padding=padding:1; Velocity=velocity:Vector; Mass=mass:4; Location with respect to entity=location_wrt_entity:EntityCoordinateVector"
P['ServiceRequestPdu']="Receiving Entity ID=receiving_entity_id:E; Servicing Entity ID=servicing_entity_id:E; Service Type Requested=service_type_requested:1; Number of Supply Types=number_of_supply_types:1; Padding=padding:2"
for n in ('Offer','Received'):
    P[f'Resupply{n}Pdu']="Receiving Entity ID=receiving_entity_id:E; Supplying Entity ID=supplying_entity_id:E; Number of Supply Types=number_of_supply_types:1; Padding=padding:1; Padding=padding2:2"
P['ResupplyCancelPdu']="Receiving Entity ID=receiving_entity_id:E; Supplying Entity ID=supplying_entity_id:E"
P['RepairCompletePdu']="Receiving Entity ID=receiving_entity_id:E; Repairing Entity ID=repairing_entity_id:E; Repair=repair:2; Padding=padding:2"
P['RepairResponsePdu']="Receiving Entity ID=receiving_entity_id:E; Repairing Entity ID=repairing_entity_id:E; Repair Result=repair_result:1; Padding=padding:1; Padding=padding2:2"
for n in ('Create','Remove'):
    P[f'{n}EntityPdu']=orr+"Request ID=request_id:4"
    P[f'{n}EntityReliablePdu']=orr+rel+"Request ID=request_id:4"
P['StartResumePdu']=orr+"Real-World Time=real_world_time:ClockTime; Simulation Time=simulation_time:ClockTime; Request ID=request_id:4"
P['StartResumeReliablePdu']=orr+"Real-World Time=real_world_time:ClockTime; Simulation Time=simulation_time:ClockTime; "+rel+"Request ID=request_id:4"
P['StopFreezePdu']=orr+"Real-World Time=real_world_time:ClockTime; Reason=reason:1; Frozen Behavior=frozen_behavior:1; Padding=padding:2; Request ID=request_id:4"
P['StopFreezeReliablePdu']=orr+"Real-World Time=real_world_time:ClockTime; Reason=reason:1; Frozen Behavior=frozen_behavior:1; Required Reliability Service=required_reliability_service:1; Padding=padding:1; Request ID=request_id:4"
for n in ('','Reliable'):
    P[f'Acknowledge{n}Pdu']=orr+"Acknowledge Flag=acknowledge_flag:2; Response Flag=response_flag:2; Request ID=request_id:4"
    P[f'ActionResponse{n}Pdu']=orr+req+"Request Status=request_status:4; "+nn
    P[f'EventReport{n}Pdu']=orr+"Event Type=event_type:4; Padding=padding:4; "+nn
    P[f'Comment{n}Pdu']=orr+nn
P['ActionRequestPdu']=orr+req+"Action ID=action_id:4; "+nn
P['ActionRequestReliablePdu']=orr+rel+req+"Action ID=action_id:4; Padding=padding3:4; "+nn
P['DataQueryPdu']=orr+req+"Time Interval=time_interval:4; "+nn
P['DataQueryReliablePdu']=orr+rel+req+"Time Interval=time_interval:4; "+nn
P['SetDataPdu']=P['DataPdu']=orr+req+"Padding=padding:4; "+nn
P['SetDataReliablePdu']=orr+rel+req+nn
P['DataReliablePdu']=orr+req+rel+nn
P['RecordQueryReliablePdu']=orr+req+"Required Reliability Service=required_reliability_service:1; Padding=padding:1; Event Type=event_type:2; Time=time:4; Number of Records=number_of_records:4"
P['SetRecordReliablePdu']=orr+req+rel+"Padding=padding3:4; Record Sets=record_sets:RecordSets"
P['ElectromagneticEmissionsPdu']="Emitting Entity ID=emitting_entity_id:E; Event ID=event_id:EventIdentifier; State Update Indicator=state_update_indicator:1; Number of Systems=number_of_systems:1; Padding=padding:2"
P['DesignatorPdu']="Designating Entity ID=designating_entity_id:E; Code Name=code_name:2; Designated Entity ID=designated_entity_id:E; Designator Code=designator_code:2; Designator Power=designator_power:4; Designator Wavelength=designator_wavelength:4; Designator Spot with respect to Designated Entity=designator_spot_wrt_designated:EntityCoordinateVector; Designator Spot Location=designator_spot_location:WorldCoordinates; Dead Reckoning Algorithm=dead_reckoning_algorithm:1; Padding=padding:1; Padding=padding2:2; Entity Linear Acceleration=entity_linear_acceleration:Vector"
P['TransmitterPdu']="Radio Reference ID=entity_id:E; Radio Number=radio_id:2; Radio Type=radio_entity_type:RadioEntityType; Transmit State=transmit_state:1; Input Source=input_source:1; Number of Variable Transmitter Parameters Records=number_of_variable_transmitter_parameters_records:2; Antenna Location=antenna_location:WorldCoordinates; Relative Antenna Location=relative_antenna_location:EntityCoordinateVector; Antenna Pattern Type=antenna_pattern_type:2; Antenna Pattern Length=antenna_pattern_length:2; Frequency=frequency:8; Transmit Frequency Bandwidth=transmit_frequency_bandwidth:4; Power=power:4; Modulation Type=modulation_type:ModulationType; Crypto System=crypto_system:2; Crypto Key ID=crypto_key_id:2; Length of Modulation Parameters=modulation_parameter_length:1; Padding=padding:1; Padding=padding2:2"
P['SignalPdu']="Radio Reference ID=entity_id:E; Radio Number=radio_id:2; Encoding Scheme=encoding_scheme:2; TDL Type=tdl_type:2; Sample Rate=sample_rate:4; Data Length=data_length:2; Samples=samples:2"
P['ReceiverPdu']="Radio Reference ID=entity_id:E; Radio Number=radio_id:2; Receiver State=receiver_state:2; Padding=padding:2; Received Power=received_power:4; Transmitter Radio Reference ID=transmitter_radio_reference_id:E; Transmitter Radio Number=transmitter_radio_id:2"
P['IntercomSignalPdu']="Intercom Reference ID=intercom_reference_id:E; Intercom Number=intercom_number:2; Encoding Scheme=encoding_scheme:2; TDL Type=tdl_type:2; Sample Rate=sample_rate:4; Data Length=data_length:2; Samples=samples:2"
P['IntercomControlPdu']="Control Type=control_type:1; Communications Channel Type=communications_channel_type:1; Source Intercom Reference ID=source_intercom_reference_id:E; Source Intercom Number=source_intercom_number:2; Source Line ID=source_line_id:1; Transmit Priority=transmit_priority:1; Transmit Line State=transmit_line_state:1; Command=command:1; Master Intercom Reference ID=master_intercom_reference_id:E; Master Intercom Number=master_intercom_number:2; Master Channel ID=master_channel_id:2; Intercom Parameters Length=intercom_parameters_length:4"
P['UnderwaterAcousticPdu']="Emitting Entity ID=emitting_entity_id:E; Event ID=event_id:EventIdentifier; State/Change Update Indicator=state_change_update_indicator:1; Padding=padding:1; Passive Parameter Index=passive_parameter_index:2; Propulsion Plant Configuration=propulsion_plant_configuration:1; Number of Shafts=number_of_shafts:1; Number of APAs=number_of_apas:1; Number of UA Emitter Systems=number_of_ua_emitter_systems:1"
P['SupplementalEmissionPdu']="Originating Entity ID=originating_entity_id:E; Infrared Signature Representation Index=infrared_signature_representation_index:2; Acoustic Signature Representation Index=acoustic_signature_representation_index:2; Radar Cross-Section Signature Representation Index=radar_cross_section_signature_representation_index:2; Number of Propulsion Systems=number_of_propulsion_systems:2; Number of Vectoring Nozzle Systems=number_of_vectoring_nozzle_systems:2"
P['IFFPdu']="Emitting Entity ID=emitting_entity_id:E; Event ID=event_id:EventIdentifier; Relative Antenna Location=relative_antenna_location:EntityCoordinateVector; System Identifier=system_id:SystemIdentifier; System Designator=system_designator:1; System Specific Data=system_specific_data:1; Fundamental Operational Data=fundamental_operational_data:FundamentalOperationalData; Layer 2 Header=layer_header:LayerHeader; Beam Data=beam_data:BeamData; Secondary Operational Data=secondary_operational_data:SecondaryOperationalData"
P['CollisionElasticPdu']="Issuing Entity ID=issuing_entity_id:E; Colliding Entity ID=colliding_entity_id:E; Collision Event ID=event_id:EventIdentifier; Padding=padding:2; Contact Velocity=contact_velocity:Vector; Mass=mass:4; Location of Impact=location_of_impact:EntityCoordinateVector; "+"; ".join(f"Collision Intermediate Result {a}=collision_intermediate_result_{a.lower()}:4" for a in ('XX','XY','XZ','YY','YZ','ZZ'))+"; Unit Surface Normal=unit_surface_normal:EntityCoordinateVector; Coefficient of Restitution=coefficient_of_restitution:4"
P['EntityStateUpdatePdu']="Entity ID=entity_id:E; Padding=padding:1; Number of Variable Parameter Records=number_of_variable_parameters:1; Entity Linear Velocity=entity_linear_velocity:Vector; Entity Location=entity_location:WorldCoordinates; Entity Orientation=entity_orientation:EulerAngles; Entity Appearance=entity_appearance:4"
P['AttributePdu']="Originating Simulation Address=originating_simulation_address:SimulationAddress; Padding=padding:4; Padding=padding2:2; Attribute Record PDU Type=attribute_record_pdu_type:1; Attribute Record Protocol Version=attribute_record_protocol_version:1; Master Attribute Record Type=master_attribute_record_type:4; Action Code=action_code:1; Padding=padding3:1; Number of Attribute Record Sets=number_of_attribute_record_sets:2"
P['AggregateStatePdu']="Aggregate ID=aggregate_id:AggregateIdentifier; Force ID=force_id:1; Aggregate State=aggregate_state:1; Aggregate Type=aggregate_type:EntityType; Formation=formation:4; Aggregate Marking=aggregate_marking:AggregateMarking; Dimensions=dimensions:Dimensions; Orientation=orientation:EulerAngles; Center of Mass=center_of_mass:WorldCoordinates; Velocity=velocity:Vector; Number of DIS Aggregates=number_of_dis_aggregates:2; Number of DIS Entities=number_of_dis_entities:2; Number of Silent Aggregate Types=number_of_silent_aggregate_types:2; Number of Silent Entity Types=number_of_silent_entity_types:2"
P['IsGroupOfPdu']="Group Entity ID=group_entity_id:E; Grouped Entity Category=grouped_entity_category:1; Number of Grouped Entities=number_of_grouped_entities:1; Padding=padding:4; Latitude=latitude:8; Longitude=longitude:8"
P['TransferOwnershipPdu']="Originating ID=originating_id:SimulationIdentifier; Receiving ID=receiving_id:SimulationIdentifier; Request ID=request_id:4; Required Reliability Service=required_reliability_service:1; Transfer Type=transfer_type:1; Transfer Entity ID=transfer_entity_id:E; Record Information=record_information:RecordSets"
P['IsPartOfPdu']="Originating Entity ID=originating_entity_id:E; Receiving Entity ID=receiving_entity_id:E; Relationship=relationship:Relationship; Part Location=part_location:Dimensions; Named Location ID=named_location_id:NamedLocation; Part Entity Type=part_entity_type:EntityType"
P['InformationOperationsReportPdu']="Originating Simulation ID=originating_simulation_id:SimulationIdentifier; IO Simulation Source=io_simulation_source:2; IO Report Type=io_report_type:1; Padding=padding:1; IO Attacker Entity ID=io_attacker_entity_id:E; IO Primary Target Entity ID=primary_target_entity_id:E; Padding=padding2:2; Padding=padding3:2; IO Records=io_records:StandardRecords"
P['InformationOperationsActionPdu']="Originating Simulation ID=originating_simulation_id:SimulationIdentifier; Receiving Simulation ID=receiving_simulation_id:SimulationIdentifier; Request ID=request_id:4; IO Warfare Type=io_warfare_type:2; IO Simulation Source=io_simulation_source:2; IO Action Type=io_action_type:2; IO Action Phase=io_action_phase:2; Padding=padding:4; IO Attacker Entity ID=io_attacker_entity_id:E; IO Primary Target Entity ID=io_primary_target_entity_id:E; Padding=padding2:2; IO Records=io_records:StandardRecords"
P['MinefieldStatePdu']="Minefield ID=minefield_id:MinefieldIdentifier; Minefield Sequence=minefield_sequence:2; Force ID=force_id:1; Number of Perimeter Points=number_of_perimeter_points:1; Minefield Type=minefield_type:EntityType; Number of Mine Types=number_of_mine_types:2; Minefield Location=minefield_location:WorldCoordinates; Minefield Orientation=minefield_orientation:EulerAngles; Appearance=appearance:2; Protocol Mode=protocol_mode:2"
P['MinefieldQueryPdu']="Minefield ID=minefield_id:MinefieldIdentifier; Requesting Entity ID=requesting_entity_id:E; Request ID=request_id:1; Number of Perimeter Points=number_of_perimeter_points:1; Padding=padding:1; Number of Sensor Types=number_of_sensor_types:1; Data Filter=data_filter:4; Requested Mine Type=requested_mine_type:EntityType"
P['MinefieldDataPdu']="Minefield ID=minefield_id:MinefieldIdentifier; Requesting Entity ID=requesting_entity_id:E; Minefield Sequence Number=minefield_sequence_number:2; Request ID=request_id:1; PDU Sequence Number=pdu_sequence_number:1; Number of PDUs=number_of_pdus:1; Number of Mines in this PDU=number_of_mines_in_this_pdu:1; Number of Sensor Types=number_of_sensor_types:1; Padding=padding:1; Data Filter=data_filter:4; Mine Type=mine_type:EntityType"
P['MinefieldResponseNackPdu']="Minefield ID=minefield_id:MinefieldAsEntity; Requesting Entity ID=requesting_entity_id:E; Request ID=request_id:1; Number of Missing PDUs=number_of_missing_pdus:1"
P['EnvironmentalProcessPdu']="Environmental Process ID=environmental_process_id:E; Environment Type=environment_type:EntityType; Model Type=model_type:1; Environment Status=environment_status:1; Number of Environment Records=number_of_environment_records:2; Sequence Number=sequence_number:2"
P['GriddedDataPdu']="Environmental Simulation Application ID=environmental_simulation_id:E; Field Number=field_number:2; PDU Number=pdu_number:2; PDU Total=pdu_total:2; Coordinate System=coordinate_system:2; Number of Grid Axes=number_of_grid_axes:1; Constant Grid=constant_grid:1; Environment Type=environment_type:EntityType; Orientation=orientation:EulerAngles; Sample Time=sample_time:ClockTime; Total Values=total_values:4; Vector Dimension=vector_dimension:1; Padding=padding:1; Padding=padding2:2"
oo="Object ID=object_id:ObjectIdentifier; Referenced Object ID=referenced_object_id:ObjectIdentifier; Update Number=update_number:2; Force ID=force_id:1; "
rr="Requester ID=requester_id:SimulationAddress; Receiving ID=receiving_id:SimulationAddress"
P['PointObjectStatePdu']=oo.replace('ObjectIdentifier','ObjectAsEntity')+"Modifications=modifications:1; Object Type=object_type:ObjectType; Object Location=object_location:WorldCoordinates; Object Orientation=object_orientation:EulerAngles; Specific Object Appearance=specific_object_appearance:4; General Object Appearance=general_object_appearance:2; Padding=padding:2; "+rr+"; Padding=padding2:4"
P['LinearObjectStatePdu']=oo+"Number of Linear Segments=number_of_segments:1; "+rr+"; Object Type=object_type:ObjectType"
P['ArealObjectStatePdu']=oo+"Modifications=modifications:1; Object Type=object_type:ObjectType; Specific Object Appearance=specific_object_appearance:4; General Object Appearance=general_object_appearance:2; Number of Points=number_of_points:2; "+rr
P['DirectedEnergyFirePdu']="Firing Entity ID=firing_entity_id:E; Event ID=event_id:EventIdentifier; Munition Type=munition_type:EntityType; Shot Start Time=shot_start_time:ClockTime; Cumulative Shot Time=cumulative_shot_time:4; Aperture/Emitter Location=aperture_emitter_location:EntityCoordinateVector; Aperture Diameter=aperture_diameter:4; Wavelength=wavelength:4; Padding=padding:4; Pulse Repetition Frequency=pulse_repetition_frequency:4; Pulse Width=pulse_width:4; Flags=flags:2; Pulse Shape=pulse_shape:1; Padding=padding2:1; Padding=padding3:4; Padding=padding4:2; Number of DE Records=number_of_de_records:2"
P['EntityDamageStatusPdu']="Damaged Entity ID=damaged_entity_id:E; Padding=padding:2; Padding=padding2:2; Number of Damage Descriptions=number_of_damage_descriptions:2"
import re
def parse(s): return [re.match(r"(.*?)=([\w.]+):([\w?]+)$",x.strip()).groups() for x in s.split(';') if x.strip()]
def expand(s):
    out=[];off=12
    for n,a,w in parse(s):
        if w=='E': w='EntityIdentifier'
        if w.isdigit(): out.append((n,a,off,int(w))); off+=int(w)
        else:
            for n2,a2,w2 in parse(R[w]): out.append((n+', '+n2,a+'.'+a2,off,int(w2))); off+=int(w2)
    return out

# records that occur as list elements (variable records: up to their list)
X={}
X['FixedDatumRecord']="Fixed Datum ID=datum_id:4; Fixed Datum Value=datum_value:4"
X['SupplyQuantity']="; ".join(f"Supply Type, {a}=supply_type.{b}:{c}" for a,b,c in parse(R['EntityType']))+"; Quantity=quantity:4"
X['PropulsionSystemData']="Power Setting=power_setting:4; Engine RPM=engine_rpm:4"
X['VectoringNozzleSystemData']="Horizontal Deflection Angle=horizontal_deflection_angle:4; Vertical Deflection Angle=vertical_deflection_angle:4"
X['ShaftRPMs']="Current Shaft RPM=current_shaft_rpms:2; Ordered Shaft RPM=ordered_shaft_rpms:2; Shaft RPM Rate of Change=shaft_rpm_rate_of_change:4"
X['ApaData']="Parameter Index=parameter_index:2; Parameter Value=parameter_value:2"
X['AcousticEmitterSystem']="Acoustic System Name=acoustic_name:2; Acoustic Function=acoustic_function:1; Acoustic ID Number=acoustic_id:1"
fpa="Active Emission Parameter Index=active_emission_parameter_index:2; Scan Pattern=scan_pattern:2; Beam Center Azimuth=beam_center_azimuth:4; Azimuthal Beamwidth=azimuthal_beamwidth:4; Beam Center Depression/Elevation=beam_center_de:4; Depression/Elevation Beamwidth=de_beamwidth:4"
X['AcousticBeamFundamentalParameter']=fpa
X['AcousticBeamData']="Beam Data Length=beam_data_length:1; Beam ID Number=beam_id_number:1; Padding=pad2:2; "+"; ".join(f"Fundamental Data Parameters, {a}=fundamental_data_parameters.{b}:{c}" for a,b,c in parse(fpa))
fpd="Frequency=frequency:4; Frequency Range=frequency_range:4; Effective Radiated Power=effective_radiated_power:4; Pulse Repetition Frequency=pulse_repetition_frequency:4; Pulse Width=pulse_width:4; Beam Azimuth Center=beam_azimuth_center:4; Beam Azimuth Sweep=beam_azimuth_sweep:4; Beam Elevation Center=beam_elevation_center:4; Beam Elevation Sweep=beam_elevation_sweep:4; Beam Sweep Sync=beam_sweep_sync:4"
X['FundamentalParameterData']=fpd
X['TrackJamTarget']="; ".join(f"Track/Jam, {a}=track_jam.{b}:{c}" for a,b,c in parse(R['EntityIdentifier']))+"; Emitter Number=emitter_id:1; Beam Number=beam_id:1"
X['EmitterSystem']="Emitter Name=emitter_name:2; Emitter Function=function:1; Emitter Number=emitter_id_number:1"
X['IFFFundamentalParameterData']="ERP=erp:4; Frequency=frequency:4; PgRF=pgrf:4; Pulse Width=pulse_width:4; Burst Length=burst_length:4; Applicable Modes=applicable_modes:1; System-Specific Data=system_specific_data:1; System-Specific Data=system_specific_data:1; System-Specific Data=system_specific_data:1"
X['LinearSegmentParameter']="Segment Number=segment_number:1; Segment Modification=segment_modification:1; General Segment Appearance=general_segment_appearance:2; Specific Segment Appearance=specific_segment_appearance:4; "+"; ".join(f"Segment Location, {a}=segment_location.{b}:{c}" for a,b,c in parse(R['WorldCoordinates']))+"; "+"; ".join(f"Segment Orientation, {a}=segment_orientation.{b}:{c}" for a,b,c in parse(R['EulerAngles']))+"; Segment Length=segment_length:4; Segment Width=segment_width:4; Segment Height=segment_height:4; Segment Depth=segment_depth:4; Padding=padding:4"
X['Point']="x=x:4; y=y:4"
X['DirectedEnergyDamage']="Record Type=record_type:4; Record Length=record_length:2; Padding=padding:2; "+"; ".join(f"Damage Location, {a}=damage_location.{b}:{c}" for a,b,c in parse(R['EntityCoordinateVector']))+"; Damage Diameter=damage_diameter:4; Temperature=temperature:4; Component Identification=component_identification:1; Component Damage Status=component_damage_status:1; Component Visual Damage Status=component_visual_damage_status:1; Component Visual Smoke Color=component_visual_smoke_color:1; "+"; ".join(f"Fire Event ID, {a}=fire_event_id.{b}:{c}" for a,b,c in parse(R['EventIdentifier']))+"; Padding=padding2:2"
X['AttributeRecord']="Record Type=record_type:4; Record Length=record_length:2"
X['AttributeRecordSet']="; ".join(f"Entity ID, {a}=entity_id.{b}:{c}" for a,b,c in parse(R['EntityIdentifier']))+"; Number of Attribute Records=number_of_attribute_records:2"
X['StandardVariableRecords']="Record Type=record_type:4; Record Length=record_length:2"
X['StandardVariableSpecification']="Number of Standard Variable Records=number_of_standard_variable_records:2"
X['ElectromagneticEmissionBeamData']="Beam Data Length=beam_data_length:1; Beam Number=beam_id_number:1; Beam Parameter Index=beam_parameter_index:2; "+"; ".join(f"Fundamental Parameter Data, {a}=fundamental_parameter_data.{b}:{c}" for a,b,c in parse(fpd))+"; Beam Function=beam_function:1; Number of Targets=number_of_track_jam_targets:1; High-Density Track/Jam=high_density_track_jam:1; Beam Status=pad4:1; Jamming Technique=jamming_mode_sequence:4"
X['ElectromagneticEmissionSystemData']="System Data Length=system_data_length:1; Number of Beams=number_of_beams:1; Padding=emissionspadding2:2; "+"; ".join(f"Emitter System, {a}=emitter_system.{b}:{c}" for a,b,c in parse(X['EmitterSystem']))+"; Location x=location.x:4; Location y=location.y:4; Location z=location.z:4"
X['AcousticEmitterSystemData']="Emitter System Data Length=emitter_system_data_length:1; Number of Beams=number_of_beams:1; Padding=pad2:2; "+"; ".join(f"Acoustic Emitter System, {a}=acoustic_emitter_system.{b}:{c}" for a,b,c in parse(X['AcousticEmitterSystem']))+"; Location x=emitter_location.x:4; Location y=emitter_location.y:4; Location z=emitter_location.z:4"
X['GridAxisDescriptor']="Domain Initial=domain_initial:8; Domain Final=domain_final:8; Domain Points=domain_points:2; Interleaf Factor=interleaf_factor:1; Axis Type=axis_type:1"
if __name__=='__main__':
    s=open('/tmp/wk/theories/WireMaps.v').read()
    ok=0
    for m in re.finditer(r'Definition (\w+Pdu)_map[^\n]*:= \[\n(.*?)\]\.',s,re.S):
        ents=[(nm,int(o),int(w)) for k,o,w,e,nm in re.findall(r'^\s*(\w+) (\d+) (\d+) (?:(\w+) )?"([^"]*)"',m.group(2),re.M)]
        c=m.group(1)
        if c not in P: print('missing',c); continue
        try: x=[(a,o,w) for n,a,o,w in expand(P[c])]
        except KeyError as e: print(c,'unknown',e,ents[:4]); continue
        if x==ents: ok+=1
        else:
            for i in range(max(len(x),len(ents))):
                a=x[i] if i<len(x) else None; b=ents[i] if i<len(ents) else None
                if a!=b: print(c,i,'IEEE',a,'LIB',b); break
    print(ok)
