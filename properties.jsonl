{"id": "C01", "title": "Integer telemetry fields survive encode/decode", "statement": "For an integer state field declared with a range [min,max] and a bit width, encoding any value v and decoding the bits gives a value d with d <= clamp(v) < d + resolution, where clamp moves v to the nearest end of the range; when the width can represent every value of the range, d = clamp(v) exactly. Encoding never leaves the previous bits in place.", "quantifier": "every declared min<=max of a 32-bit or 8-bit type with max-min representable in the type's own arithmetic (C43 covers the rest), every width 1..32, every value", "why_tests_cant": "The claim ranges over about 2^96 range/width/value triples; the unit tests sample a handful.", "anchors": ["src/common/SerializerTypes.inl:IntegerSerializer", "src/common/fixed_array.hpp:bit_array::set_ullong"]}
{"id": "C02", "title": "Any received bit pattern decodes inside the declared range", "statement": "Decoding any bit pattern of the field's width yields a value of the declared range [min,max].", "quantifier": "every declared range and width, every bit pattern a ground station or noise can put in an uplink", "why_tests_cant": "The claim ranges over all bit patterns; tests only decode what the encoder produced.", "anchors": ["src/common/SerializerTypes.inl:IntegerSerializer::deserialize", "src/fsw/FCCode/UplinkConsumer.cpp"]}
{"id": "C03", "title": "GPS time arithmetic is exact and ordered", "statement": "A set GPS time converts to nanoseconds and back without loss; adding then subtracting a duration is the identity; subtracting more than the time unsets it; on set times the six comparison operators agree with comparison of the nanosecond counts; an unset time is never equal to, below or above any other time.", "quantifier": "every week number, time of week, nanosecond residue, every 64-bit duration, set or unset operands", "why_tests_cant": "The claim ranges over 64-bit values and the set/unset corner combinations.", "anchors": ["src/common/GPSTime.hpp:gps_time_t"]}
{"id": "C04", "title": "GPS time telemetry round trip", "statement": "Encoding a set GPS time whose week is in 2000..3000 and whose fields are in range and decoding it returns the same week, time of week, nanoseconds and set flag; encoding an unset time decodes to an unset time.", "quantifier": "every GPS time", "why_tests_cant": "The claim ranges over about 2^61 times.", "anchors": ["src/common/SerializerTypes.inl:Serializer<gps_time_t>"]}
{"id": "C05", "title": "Bit stream reads return what was written and edits are local", "statement": "Reading n bits from a stream returns exactly the next n bits in order and advances by n (or by what is left); a peek leaves the position unchanged; a seek outside the buffer is refused and changes nothing; an edit changes exactly the addressed bits and no other bit of the buffer, and never touches memory outside the buffer.", "quantifier": "every buffer, position, read length and edit", "why_tests_cant": "The claim ranges over every buffer content and every unaligned offset/length pair.", "anchors": ["src/common/bitstream.cpp:bitstream::nextN", "src/common/bitstream.cpp:bitstream::editN", "src/common/bitstream.cpp:bitstream::seekG"]}
{"id": "C06", "title": "A rejected uplink changes nothing", "statement": "For any received bytes, either the packet is accepted and every field it names receives exactly the bits it carries, with all other fields unchanged, or no field changes at all. The packet length is cleared either way, so a packet is applied at most once.", "quantifier": "every byte string of every length, every registry of writable fields, every prior field value", "why_tests_cant": "The claim ranges over all 70-byte uplinks; fuzzing cannot show atomicity for all of them.", "anchors": ["src/fsw/FCCode/UplinkCommon.cpp:Uplink::_validate_packet", "src/fsw/FCCode/UplinkCommon.cpp:Uplink::_update_fields", "src/fsw/FCCode/UplinkConsumer.cpp:UplinkConsumer::execute"]}
{"id": "C07", "title": "Ground-built uplinks are accepted and take effect", "statement": "Any set of assignments to distinct writable fields that the ground producer packs is accepted by the spacecraft, and after processing exactly those fields hold exactly the packed bits.", "quantifier": "every registry, every list of distinct assignments, every field width", "why_tests_cant": "The claim ranges over combinations of fields and unaligned widths.", "anchors": ["src/gsw/parsers/src/UplinkProducer.cpp:UplinkProducer::add_entry", "src/fsw/FCCode/UplinkCommon.cpp"]}
{"id": "C08", "title": "Uplink validation accepts exactly well-formed packets and always terminates in bounds", "statement": "Validation accepts a byte string exactly when it is a concatenation of (index,value) entries with in-range pairwise distinct indices, followed by fewer than index_size+8 zero bits of padding; it never reads outside the received bytes.", "quantifier": "every byte string of any length", "why_tests_cant": "The claim ranges over all byte strings, including truncated and adversarial ones.", "anchors": ["src/fsw/FCCode/UplinkCommon.cpp:Uplink::_validate_packet"]}
{"id": "C09", "title": "Downlink frame carries every active flow in order", "statement": "Within one packet, the frame is: start bit 1, 32-bit cycle count, then for each active flow, in priority order, its id and its fields' bits, then zero fill; nothing else.", "quantifier": "every flow table, activation pattern and field contents that fits the frame", "why_tests_cant": "The claim ranges over all flow tables and unaligned bit offsets.", "anchors": ["src/fsw/FCCode/DownlinkProducer.cpp:DownlinkProducer::execute", "src/fsw/FCCode/DownlinkProducer.cpp:DownlinkProducer::add_bits_to_downlink_frame"]}
{"id": "C10", "title": "Multi-packet downlink frames carry a continuation marker at each packet boundary", "statement": "In a frame longer than one 560-bit packet, bit 560*k of the frame is 0 for each continuation packet k>=1, and the telemetry bits are the remaining bits in order with none overwritten.", "quantifier": "every frame longer than one packet", "why_tests_cant": "The claim ranges over all frame contents; the tests use short frames.", "anchors": ["src/fsw/FCCode/DownlinkProducer.cpp:DownlinkProducer::add_bits_to_downlink_frame"]}
{"id": "C11", "title": "Building a downlink frame stays inside the frame buffer", "statement": "No write of the frame builder falls outside the buffer whose size was computed at start-up.", "quantifier": "every flow table", "why_tests_cant": "The claim ranges over all total sizes modulo 8 and modulo 560.", "anchors": ["src/fsw/FCCode/DownlinkProducer.cpp:DownlinkProducer::compute_downlink_size", "src/fsw/FCCode/DownlinkProducer.cpp:DownlinkProducer::execute"]}
{"id": "C12", "title": "Ground reading of a downlink recovers the telemetry", "statement": "The ground parser applied to the packets of a frame recovers the cycle count and each active flow's field bits.", "quantifier": "every flow table and contents", "why_tests_cant": "The claim ranges over all contents.", "anchors": ["src/gsw/parsers/src/DownlinkParser.cpp", "src/fsw/FCCode/DownlinkProducer.cpp"]}
{"id": "C13", "title": "Flow priority commands only permute the flow table", "statement": "Shifting a flow to a new priority is a permutation of the table that places the flow at the requested index and keeps the relative order of the others; toggling an id flips exactly that flow's active bit.", "quantifier": "every flow table and pair of valid ids", "why_tests_cant": "The claim ranges over all table sizes and pairs.", "anchors": ["src/fsw/FCCode/DownlinkProducer.cpp:DownlinkProducer::shift_flow_priorities", "src/fsw/FCCode/DownlinkProducer.cpp:DownlinkProducer::toggle_flow"]}
{"id": "C14", "title": "Event storage keeps the most recent events", "statement": "After any number of signals, storage of size N holds exactly the last min(N, count) event records, each with the control cycle and field bits at its signal, oldest overwritten first.", "quantifier": "every history of signals and every N>=1", "why_tests_cant": "The claim ranges over unbounded histories and wrap positions.", "anchors": ["src/common/EventStorage.cpp", "src/common/Event.cpp:Event::signal"]}
{"id": "C15", "title": "A fault trips exactly after its persistence", "statement": "Without ground overrides, a fault reads as faulted exactly when its condition has been signalled in strictly more than the persistence number of cycles since the last unsignal; several signals in one cycle count once; an override forces true, a suppression forces false when there is no override, and a rising edge of either or an unsignal command clears the count.", "quantifier": "every history of signal/unsignal/read/command operations in the first 2^32-1 control cycles after boot (23 years), every persistence", "why_tests_cant": "The claim ranges over unbounded histories.", "anchors": ["src/common/Fault.cpp:Fault::signal", "src/common/Fault.cpp:Fault::is_faulted", "src/common/Fault.cpp:Fault::process_commands"]}
{"id": "C16", "title": "Field registry names are unique and lookups are stable", "statement": "After any sequence of registrations no category holds two entries of one name, a refused registration changes no lookup, an accepted one changes only the lookup of its own name, and every writable field is readable.", "quantifier": "every sequence of registrations", "why_tests_cant": "The claim ranges over all sequences.", "anchors": ["src/common/StateFieldRegistry.cpp"]}
{"id": "C17", "title": "Persistent fields survive a power cycle at any cycle", "statement": "After a reboot at any control cycle, each persistent field holds the value it had at its last save point, whichever cycle the power was lost in; mission state is restored only if it was docking or docked.", "quantifier": "every crash point (between any two byte writes of any cycle), every set of up to 819 one-byte (char or bool) persistent fields as the flight software declares, periods, value histories and earlier EEPROM contents, some saved byte differing from 0xFF (C45 covers the rest)", "why_tests_cant": "The claim ranges over all crash points and histories.", "anchors": ["src/fsw/FCCode/EEPROMControllerCommon.cpp", "src/fsw/FCCode/EEPROMControllerTeensy.cpp", "src/common/StateFieldTypes.inl:_set_from_eeprom"]}
{"id": "C18", "title": "Fault handling recommends the most severe response", "statement": "The main fault handler returns safehold when any constituent handler calls for it, otherwise standby when any does, otherwise none; disabled, it always returns none.", "quantifier": "every combination of constituent responses and flags", "why_tests_cant": "The claim ranges over all combinations with handler-internal histories.", "anchors": ["src/fsw/FCCode/MainFaultHandler.cpp:MainFaultHandler::execute"]}
{"id": "C19", "title": "Loss of communication escalates on schedule", "statement": "If no message is exchanged, the radio fault response is none for one day, then standby through three power-cycle attempts of one third of a day each, then safehold; any successful exchange returns it to unfaulted within two cycles, from every stage.", "quantifier": "every cycle count including wrap-around, every schedule of exchanges", "why_tests_cant": "The claim ranges over days-long histories and 32-bit wrap.", "anchors": ["src/fsw/FCCode/QuakeFaultHandler.cpp"]}
{"id": "C20", "title": "A safehold response disarms the spacecraft in the same cycle", "statement": "Whenever the fault handler calls for safehold and the mission is neither in startup nor manual, the cycle ends in safehold with propulsion disabled, attitude control in startup, both DC-DC converters commanded off and the leader/follower designation undecided.", "quantifier": "every mission state and every input", "why_tests_cant": "The claim ranges over all combinations of about 25 inputs per state.", "anchors": ["src/fsw/FCCode/MissionManager.cpp:MissionManager::execute", "src/fsw/FCCode/MissionManager.cpp:MissionManager::transition_to"]}
{"id": "C21", "title": "Safehold and manual are left only by ground command", "statement": "Absent a ground write to the mission state, a mission in safehold or manual stays there at every later cycle.", "quantifier": "every input history of any length", "why_tests_cant": "The claim ranges over unbounded histories.", "anchors": ["src/fsw/FCCode/MissionManager.cpp:dispatch_safehold", "src/fsw/FCCode/MissionManager.cpp:dispatch_manual"]}
{"id": "C22", "title": "Mission state changes follow the concept of operations", "statement": "Each cycle's state change is an edge of the published state graph; in particular docking is entered only from a close-approach state and docked only from docking with the dock sensed.", "quantifier": "every state and input", "why_tests_cant": "The claim ranges over all input combinations.", "anchors": ["src/fsw/FCCode/MissionManager.cpp"]}
{"id": "C23", "title": "Deployment wait is respected", "statement": "From power-on in startup, no actuation state is entered before the deployment timer has counted the full deployment wait, whatever the inputs.", "quantifier": "every input history", "why_tests_cant": "The claim ranges over 10588-cycle histories.", "anchors": ["src/fsw/FCCode/MissionManager.cpp:dispatch_startup"]}
{"id": "C24", "title": "Docking gives up after the ground-set time and not before", "statement": "A mission in docking returns to standby when it has spent more than the configured number of cycles in docking since it entered, and not earlier for that reason.", "quantifier": "every history of entering and leaving docking", "why_tests_cant": "The claim ranges over histories with several docking attempts.", "anchors": ["src/fsw/FCCode/MissionManager.cpp:too_long_in_docking", "src/fsw/FCCode/MissionManager.cpp:dispatch_docking"]}
{"id": "C25", "title": "A day in safehold reboots the spacecraft", "statement": "A mission that has been in safehold for one day of cycles without ground contact requests a hard reset.", "quantifier": "every history leading to and staying in safehold", "why_tests_cant": "The claim ranges over day-long histories combined with the fault handler.", "anchors": ["src/fsw/FCCode/MissionManager.cpp:dispatch_safehold", "src/fsw/FCCode/QuakeFaultHandler.hpp"]}
{"id": "C26", "title": "Radio manager never stalls", "statement": "Each of the config, write and read phases ends, by success or by giving up, within its cycle budget, whatever the radio answers; in the disabled state nothing is sent.", "quantifier": "every sequence of radio answers", "why_tests_cant": "The claim ranges over unbounded answer sequences.", "anchors": ["src/fsw/FCCode/QuakeManager.cpp", "src/fsw/FCCode/QuakeControlTask.cpp"]}
{"id": "C27", "title": "Every byte of a telemetry snapshot is transmitted", "statement": "Over consecutive successful transmissions of one snapshot the packets sent are consecutive 70-byte slices covering the entire snapshot.", "quantifier": "every snapshot size", "why_tests_cant": "The claim ranges over all sizes.", "anchors": ["src/fsw/FCCode/QuakeManager.cpp:QuakeManager::copy_next_snapshot", "src/fsw/FCCode/QuakeManager.cpp:dispatch_write"]}
{"id": "C28", "title": "Thruster valves open for the scheduled time and one at a time", "statement": "Running the 3 ms valve loop from any schedule opens at most one valve per tick, keeps valve i open for exactly floor(s_i/3) ticks, and ends with every valve closed and the schedule cleared.", "quantifier": "every schedule", "why_tests_cant": "The claim ranges over 1000^4 schedules and all tick counts.", "anchors": ["src/fsw/FCCode/Drivers/PropulsionSystem.cpp:thrust_valve_loop"]}
{"id": "C29", "title": "No thruster valve is open while propulsion is not firing", "statement": "In every reachable state of the propulsion driver, when firing is not enabled every thruster valve is closed; disabling closes all of them.", "quantifier": "every sequence of driver calls interleaved with timer ticks", "why_tests_cant": "The claim ranges over all interleavings.", "anchors": ["src/fsw/FCCode/Drivers/PropulsionSystem.cpp"]}
{"id": "C30", "title": "Propulsion fires only a valid schedule at its programmed time", "statement": "The controller starts a firing only at the end of the countdown, with power, and after a pressurization that ended with a valid schedule and either the pressure at its threshold or its failure not reported as a fault; in the disabled state (or an undefined one) all valves are closed.", "quantifier": "every controller state and input history", "why_tests_cant": "The claim ranges over unbounded histories.", "anchors": ["src/fsw/FCCode/PropController.cpp"]}
{"id": "C31", "title": "Every schedule judged valid can be loaded", "statement": "A firing schedule the controller judges valid is accepted by the propulsion driver unchanged.", "quantifier": "every schedule", "why_tests_cant": "The claim ranges over 1000^4 schedules.", "anchors": ["src/fsw/FCCode/PropController.cpp:PropController::is_valid_schedule", "src/fsw/FCCode/Drivers/PropulsionSystem.cpp:set_schedule"]}
{"id": "C32", "title": "Pressurization attempts are bounded", "statement": "From entering the pressurizing state the intermediate valve is opened at most the configured number of times, with the configured open and cool-down times, and the state is left.", "quantifier": "every pressure reading sequence and configuration", "why_tests_cant": "The claim ranges over unbounded sensor histories.", "anchors": ["src/fsw/FCCode/PropController.cpp:PropState_Pressurizing"]}
{"id": "C33", "title": "A commanded power cycle turns an output off and on again exactly once", "statement": "A power-cycle command on an output leads to the output being switched off, then on, then the command is cleared, and no other output is touched.", "quantifier": "every output pattern, command pattern, cycle count and period", "why_tests_cant": "The claim ranges over all patterns of six outputs and commands over time.", "anchors": ["src/fsw/FCCode/GomspaceController.cpp:GomspaceController::power_cycle_outputs"]}
{"id": "C34", "title": "DC-DC commands take effect", "statement": "After each cycle the two converters are in the state of their command fields; a disable command leaves both off; a reset turns both off for one cycle and then both on and is then cleared.", "quantifier": "every converter state and command combination", "why_tests_cant": "The claim ranges over all combinations over consecutive cycles.", "anchors": ["src/fsw/FCCode/DCDCController.cpp:DCDCController::execute"]}
{"id": "C35", "title": "The docking flag tells where the docking motor is", "statement": "Whenever the motor is at rest, the reported docking configuration equals the physical half-turn position of the motor.", "quantifier": "every history of commands and motor steps", "why_tests_cant": "The claim ranges over all interleavings of commands with the stepping.", "anchors": ["src/fsw/FCCode/DockingController.cpp", "src/fsw/FCCode/Drivers/DockingSystem.cpp"]}
{"id": "C36", "title": "Attitude device reset and disable commands address only the named devices", "statement": "In one cycle exactly the devices whose reset bit is set are reset and exactly the devices whose disable bit is set are disabled, and the command bits are cleared.", "quantifier": "every combination of 2x32 command bits", "why_tests_cant": "The claim ranges over 2^64 combinations.", "anchors": ["src/fsw/FCCode/ADCSBoxController.cpp:ADCSBoxController::execute", "src/adcs/havt.cpp"]}
{"id": "C37", "title": "Attitude computer register writes are isolated", "statement": "A driver command changes only the registers it names; in particular the single-byte writes never spill into the next register.", "quantifier": "every driver call and register state", "why_tests_cant": "The claim ranges over all byte values and call sequences.", "anchors": ["src/adcs/state_controller.cpp:on_i2c_recieve", "src/fsw/FCCode/Drivers/ADCS.cpp"]}
{"id": "C38", "title": "Torque rods obey the configured moment limit", "statement": "The moment driven on each functional rod has magnitude at most the configured limit.", "quantifier": "every command and limit", "why_tests_cant": "The claim ranges over all real commands and limits.", "anchors": ["src/adcs/mtr.cpp:actuate"]}
{"id": "C39", "title": "Disabling the reaction wheels stops them", "statement": "After the flight computer commands the wheels disabled while the attitude computer is active, the wheels are stopped.", "quantifier": "every prior wheel state and interleaving of bus traffic with the attitude loop", "why_tests_cant": "The claim ranges over all interleavings.", "anchors": ["src/adcs/state_controller.cpp:RWA_COMMAND", "src/adcs/main.cpp:update_rwa", "src/adcs/rwa.cpp:actuate"]}
{"id": "C40", "title": "Thrust allocation never asks for negative impulse and realises the command", "statement": "The four thruster impulses computed for a commanded impulse vector are non-negative, and choose the minimum-norm solution when it is non-negative.", "quantifier": "every impulse vector", "why_tests_cant": "The claim ranges over all of R^3.", "anchors": ["src/fsw/FCCode/OrbitController.cpp:OrbitController::schedule_valves"]}
{"id": "C41", "title": "Task start times survive microsecond counter roll-over", "statement": "On the flight computer a task waits exactly the microseconds left to its start time, and counts as late exactly when the start time has passed, also across the 32-bit roll-over of the microsecond counter, provided the lead is below 2^31 microseconds.", "quantifier": "every pair of start time and clock reading", "why_tests_cant": "The claim ranges over 2^64 pairs.", "anchors": ["src/fsw/FCCode/TimedControlTask.hpp:wait_until_time"]}
{"id": "C42", "title": "Radio message checksum detects every single-byte corruption", "statement": "A message received with its transmitted checksum in which exactly one byte was changed is reported as corrupted.", "quantifier": "every message, position and replacement byte", "why_tests_cant": "The claim ranges over all messages.", "anchors": ["src/fsw/FCCode/Drivers/QLocate.cpp:QLocate::checksum", "src/fsw/FCCode/Drivers/QLocate.cpp:QLocate::get_sbdrb"]}
{"id": "C43", "title": "Every integer range the type allows can be declared", "statement": "C01 holds for every range of the type, including the full default range and the full signed char range in one bit, and a raw bit array stores every value that fits its width.", "quantifier": "every declared range and width, every 64-bit value", "why_tests_cant": "The claim ranges over 2^128 declarations and values.", "anchors": ["src/common/SerializerTypes.inl:IntegerSerializer", "src/common/fixed_array.hpp:bit_array::set_ullong"]}
{"id": "C44", "title": "Faults keep counting for ever", "statement": "A fault counts a signal once per control cycle in every cycle, including cycle number zero and after the 32-bit cycle counter wraps.", "quantifier": "every cycle number and history", "why_tests_cant": "The claim ranges over 2^32 cycle numbers, beyond any test's duration.", "anchors": ["src/common/Fault.cpp:Fault::signal", "src/fsw/FCCode/ClockManager.cpp:ClockManager::execute"]}
{"id": "C45", "title": "Persistent fields of every saveable type survive a power cycle", "statement": "C17 holds also for 32-bit fields and for every image, including one of all 0xFF bytes.", "quantifier": "every saveable type and value", "why_tests_cant": "The claim ranges over 2^32 values; tests run the desktop build, which stores whole integers.", "anchors": ["src/fsw/FCCode/EEPROMControllerTeensy.cpp:EEPROMController::update_EEPROM", "src/common/StateFieldTypes.inl:_get_eeprom_repr"]}
{"id": "C46", "title": "A persistent field never saved keeps its default", "statement": "After a reboot, a persistent field whose save cycle was never reached has the default its constructor gave it.", "quantifier": "every crash cycle and set of fields", "why_tests_cant": "The claim ranges over all crash points of the first boot.", "anchors": ["src/fsw/FCCode/EEPROMControllerTeensy.cpp:EEPROMController::read_EEPROM"]}
{"id": "C47", "title": "A reboot out of safehold waits a full day", "statement": "The hard reset for a day in safehold is never requested before the spacecraft has been in safehold for one day of cycles.", "quantifier": "every history of entering and staying in safehold, by fault or ground command", "why_tests_cant": "The claim ranges over a day is 508235 cycles.", "anchors": ["src/fsw/FCCode/MissionManager.cpp:MissionManager::dispatch_safehold", "src/fsw/FCCode/MissionManager.cpp:MissionManager::set"]}
{"id": "C48", "title": "The radio is switched on again after every fault power cycle", "statement": "When the loss-of-contact response power cycles the radio, the radio is reconfigured in the next cycle.", "quantifier": "every state of the other fault handlers in both cycles", "why_tests_cant": "The claim ranges over all interleavings of faults.", "anchors": ["src/fsw/FCCode/QuakeFaultHandler.cpp:QuakeFaultHandler", "src/fsw/FCCode/MainFaultHandler.cpp:MainFaultHandler::execute"]}
{"id": "C49", "title": "Every entry into safehold disarms the spacecraft", "statement": "Whatever brings the mission into safehold (fault response, ground command, undefined mission state), the cycle ends with propulsion disabled and both converters commanded off.", "quantifier": "every previous mission state and input", "why_tests_cant": "The claim ranges over all states.", "anchors": ["src/fsw/FCCode/MissionManager.cpp:MissionManager::execute", "src/fsw/FCCode/MissionManager.cpp:MissionManager::set"]}
{"id": "C50", "title": "The GPS fault response is exact", "statement": "The GPS fault handler never asks for safehold and asks for standby exactly when it is enabled, the mission is in a rendezvous state, and the receiver is reported dead, or carrier-phase fixes have been missing for longer than the ground-set waits.", "quantifier": "every field value including counter wrap", "why_tests_cant": "The claim ranges over 2^96 combinations of cycle stamps.", "anchors": ["src/fsw/FCCode/PiksiFaultHandler.cpp:PiksiFaultHandler::execute"]}
{"id": "C51", "title": "The ground-set venting limit is kept", "statement": "Apart from the cycles of a double-tank fault, the maximum number of venting cycles in force is the one last set by the ground.", "quantifier": "every history of faults and ground writes", "why_tests_cant": "The claim ranges over all histories.", "anchors": ["src/fsw/FCCode/PropFaultHandler.cpp:PropFaultHandler::execute"]}
{"id": "C52", "title": "Thruster valves are shut outside firing and venting", "statement": "After every controller cycle that does not end in the firing, venting or manual state all thruster valves are closed and the valve timer is off; outside manual control no two valves of the system are open together except while firing.", "quantifier": "every history of sensor readings, parameters and writes of the state", "why_tests_cant": "The claim ranges over unbounded histories.", "anchors": ["src/fsw/FCCode/PropController.cpp:PropController::execute", "src/fsw/FCCode/PropController.cpp:ActionCycleOpenClose::evaluate", "src/fsw/FCCode/Drivers/PropulsionSystem.cpp"]}
{"id": "C53", "title": "A firing scheduled early enough is not abandoned for lack of time", "statement": "When a firing was waiting for its pressurization time, pressurization starts early enough that all configured openings fit before the firing: the attempt is never dropped because the countdown ran down.", "quantifier": "every configuration with open and close times of at least one cycle, held constant during the attempt", "why_tests_cant": "The claim ranges over unbounded countdowns and configurations.", "anchors": ["src/fsw/FCCode/PropController.cpp:PropController::min_cycles_needed", "src/fsw/FCCode/PropController.cpp:PropState_Pressurizing"]}
{"id": "C54", "title": "A firing ends, and ends with the thrusters shut", "statement": "A firing leaves the firing state after at most 336 runs of the 3 ms valve loop, and whenever the firing state is left, for whatever reason, all thruster valves are closed and the timer is off.", "quantifier": "every schedule and every interleaving of loop runs with controller cycles", "why_tests_cant": "The claim ranges over all interleavings.", "anchors": ["src/fsw/FCCode/PropController.cpp:PropState_Firing", "src/fsw/FCCode/Drivers/PropulsionSystem.cpp:thrust_valve_loop"]}
{"id": "C55", "title": "A firing that ends by itself gave every valve its scheduled time", "statement": "When the controller goes from firing to idle, valve i was open for floor(s_i/3) full intervals of the valve loop.", "quantifier": "every schedule and every interleaving of loop runs with controller cycles", "why_tests_cant": "The claim ranges over all interleavings.", "anchors": ["src/fsw/FCCode/PropController.cpp:PropState_Firing", "src/fsw/FCCode/Drivers/PropulsionSystem.cpp:thrust_valve_loop"]}
{"id": "C56", "title": "The radio sends nothing but telemetry", "statement": "What the radio takes and transmits as a snapshot consists of bytes of the telemetry snapshot only.", "quantifier": "every snapshot size and memory content", "why_tests_cant": "The claim ranges over all sizes and contents of the memory after the snapshot.", "anchors": ["src/fsw/FCCode/QuakeManager.cpp:QuakeManager::init", "src/fsw/FCCode/QuakeManager.cpp:QuakeManager::copy_next_snapshot", "src/fsw/FCCode/DownlinkProducer.cpp:DownlinkProducer::init_flows"]}
{"id": "C57", "title": "The time of last contact is the time of an acknowledged exchange", "statement": "radio.last_comms_ccno changes only in a cycle in which a complete, well-formed exchange report with a success status was read from the radio, and then it is that cycle's number.", "quantifier": "every state of the radio manager and every radio answer", "why_tests_cant": "The claim ranges over all states and answers.", "anchors": ["src/fsw/FCCode/QuakeManager.cpp:QuakeManager::dispatch_transceive", "src/fsw/FCCode/Drivers/QLocate.cpp:QLocate::get_sbdix"]}
{"id": "C58", "title": "The uplink handed over is the message received", "statement": "Whenever the radio manager announces an uplink of n bytes, a message with a valid checksum was read in that cycle, it has n bytes, and they are the bytes in the uplink buffer.", "quantifier": "every state of the radio manager and every radio answer", "why_tests_cant": "The claim ranges over all states and answers.", "anchors": ["src/fsw/FCCode/QuakeManager.cpp:QuakeManager::dispatch_read", "src/fsw/FCCode/Drivers/QLocate.cpp:QLocate::get_sbdrb"]}
{"id": "C59", "title": "The battery heater follows its command", "statement": "After every cycle but the first in which the supply answers, the heater is on exactly when it is commanded on.", "quantifier": "every state of the supply, the fields and the cycle counter", "why_tests_cant": "The claim ranges over all states.", "anchors": ["src/fsw/FCCode/GomspaceController.cpp:GomspaceController::execute", "src/fsw/FCCode/Drivers/Gomspace.cpp:Gomspace::get_heater"]}
{"id": "C60", "title": "A boot leaves heater and panel voltages as they are", "statement": "The first cycle after a boot takes over the heater state and the panel voltages of the supply as commands, so nothing is switched until the ground commands it.", "quantifier": "every state of the supply and every bus behaviour", "why_tests_cant": "The claim ranges over all states and bus failures.", "anchors": ["src/fsw/FCCode/GomspaceController.cpp:GomspaceController::execute"]}
{"id": "C61", "title": "The power-point tracker follows its command", "statement": "A tracker mode commanded for two consecutive cycles in which the supply answers is the mode of the supply.", "quantifier": "every state and every earlier command history", "why_tests_cant": "The claim ranges over all states with stale readings.", "anchors": ["src/fsw/FCCode/GomspaceController.cpp:GomspaceController::execute", "src/fsw/FCCode/Drivers/Gomspace.cpp:Gomspace::set_ppt_mode"]}
{"id": "C62", "title": "Panel voltages are set to the commanded values", "statement": "In fixed tracking mode the supply is given exactly the commanded panel voltages.", "quantifier": "every 16-bit voltage and every state", "why_tests_cant": "The claim ranges over all values; the desktop build that unit tests run leaves out the byte order code.", "anchors": ["src/fsw/FCCode/GomspaceController.cpp:GomspaceController::execute", "src/fsw/FCCode/Drivers/Gomspace.cpp:Gomspace::set_pv_volt"]}
{"id": "C63", "title": "The GPS receiver is off until deployment is over and powered afterwards", "statement": "While the receiver is held off its output is off after every cycle; once the deployment wait is over it is released, and it has power within one power-cycling period.", "quantifier": "every history of both controllers, including reboots", "why_tests_cant": "The claim ranges over unbounded histories and periods.", "anchors": ["src/fsw/FCCode/GomspaceController.cpp:GomspaceController::execute", "src/fsw/FCCode/MissionManager.cpp:MissionManager::dispatch_startup", "src/fsw/FCCode/EEPROMControllerTeensy.cpp:EEPROMController::read_EEPROM"]}
{"id": "C64", "title": "Telemetry shows whether a fault is in force", "statement": "The value of a fault in telemetry is true exactly when the fault handlers would be told that the fault is present.", "quantifier": "every history of signals, readings and ground commands", "why_tests_cant": "The claim ranges over unbounded histories.", "anchors": ["src/common/Fault.cpp:Fault::is_faulted", "src/common/Fault.cpp:Fault::unsignal"]}
{"id": "C65", "title": "Disabling the torque rods turns them off", "statement": "With the attitude computer active, a rod mode other than enabled followed by a moment command leaves every functional rod undriven from at most 43 program steps on, until a new rod mode is commanded.", "quantifier": "every state of the attitude computer, every moment and every interleaving of bus traffic with the attitude loop", "why_tests_cant": "The claim ranges over all interleavings of an interrupt with the loop.", "anchors": ["src/adcs/main.cpp:update_mtr", "src/adcs/mtr.cpp:actuate", "src/adcs/state_controller.cpp:on_i2c_recieve", "src/fsw/FCCode/Drivers/ADCS.cpp:ADCS::set_mtr_mode"]}
{"id": "C66", "title": "A zero moment command turns the torque rods off", "statement": "With the attitude computer active, the rods enabled and a non-negative limit, a commanded moment of zero sets the drive of every functional rod to exactly zero, although zero is not representable in the transmitted scale.", "quantifier": "every state of the attitude computer and every interleaving of other traffic with the loop", "why_tests_cant": "The claim ranges over all interleavings and configurations.", "anchors": ["src/adcs/mtr.cpp:actuate", "src/adcs/utl/convert.hpp", "src/fsw/FCCode/Drivers/ADCS.cpp:ADCS::set_mtr_cmd"]}
{"id": "C67", "title": "Attitude commands arrive as given, to one step of their scale", "statement": "A wheel, rod, limit, filter or temperature command within the documented range reaches the attitude computer's registers with an error of at most one step of the 8 or 16 bit scale, with its mode and with the new-command flag raised; device tables arrive exactly.", "quantifier": "every value in range and every register state", "why_tests_cant": "The claim ranges over all real values in range.", "anchors": ["src/fsw/FCCode/Drivers/ADCS.cpp", "src/adcs/state_controller.cpp:on_i2c_recieve", "src/adcs/utl/convert.hpp"]}
{"id": "C68", "title": "Wheels turn in the commanded direction", "statement": "A wheel whose commanded torque or speed is negative in the wheel frame is driven clockwise, otherwise counter-clockwise.", "quantifier": "every command and device state", "why_tests_cant": "The claim ranges over all real commands.", "anchors": ["src/adcs/rwa.cpp:actuate"]}
{"id": "C69", "title": "A passive attitude computer drives no actuator", "statement": "After the attitude computer was put into passive mode, torque rods and wheels are not driven.", "quantifier": "every reachable state and all later traffic that does not leave passive mode", "why_tests_cant": "The claim ranges over all later traffic.", "anchors": ["src/adcs/main.cpp:update_mtr", "src/adcs/main.cpp:update_rwa"]}
{"id": "C70", "title": "Wheel readings are refreshed in every pass of the attitude loop", "statement": "While the attitude computer is active the wheel speed and ramp readings offered to the flight computer are at most one pass of the loop old.", "quantifier": "every state and interleaving", "why_tests_cant": "The claim ranges over all interleavings.", "anchors": ["src/adcs/main.cpp:update_rwa"]}
{"id": "C71", "title": "The gyroscope heater is on exactly when the gyroscope is too cold", "statement": "After every sensor update the heater is driven exactly when the filtered gyroscope temperature is below the commanded one.", "quantifier": "every sensor behaviour and device state", "why_tests_cant": "The claim ranges over all temperature histories including missing readings.", "anchors": ["src/adcs/imu.cpp:update_sensors"]}
{"id": "C72", "title": "The sun vector reported is one that was computed", "statement": "If the flight computer shows a sun vector, then it is, to one step of its scale, a vector computed earlier from at least four lit sensors; it does not change until a new calculation is requested; and no vector is shown unless the calculation is reported complete.", "quantifier": "every history of the attitude computer in which the flight computer does not itself write the complete status", "why_tests_cant": "The claim ranges over unbounded histories.", "anchors": ["src/adcs/ssa.cpp:calculate_sun_vector", "src/adcs/main.cpp:update_ssa", "src/fsw/FCCode/ADCSBoxMonitor.cpp:ADCSBoxMonitor::execute", "src/fsw/FCCode/Drivers/ADCS.cpp:ADCS::get_ssa"]}
{"id": "C73", "title": "A silent attitude computer is noticed", "statement": "When the attitude computer does not answer, it is reported as not functional and its readings are not presented as valid.", "quantifier": "every content of the receive buffer", "why_tests_cant": "The claim ranges over all stale buffer contents.", "anchors": ["src/fsw/FCCode/ADCSBoxMonitor.cpp:ADCSBoxMonitor::execute", "src/fsw/FCCode/Drivers/ADCS.cpp:ADCS::i2c_ping"]}
{"id": "C74", "title": "No half-received actuator command is carried out", "statement": "Whenever the attitude loop changes the drive of a rod or wheel, the vector it uses is one that the command registers held as a whole at one moment, or a device table is being executed.", "quantifier": "every interleaving of received messages with the steps of the loop", "why_tests_cant": "The claim ranges over all interleavings.", "anchors": ["src/adcs/main.cpp:update_mtr", "src/adcs/main.cpp:update_rwa", "src/adcs/state_controller.cpp:on_i2c_recieve"]}
{"id": "C75", "title": "A device out of use is idle", "statement": "A torque rod, wheel or heater device that is not functional is not driven.", "quantifier": "every history from boot", "why_tests_cant": "The claim ranges over unbounded histories of commands, failures and interleavings.", "anchors": ["src/adcs/havt.cpp", "src/adcs/mtr.cpp:actuate", "src/adcs/rwa.cpp:actuate", "src/adcs/dev"]}
{"id": "C76", "title": "The device table read by the flight computer is at most one pass old", "statement": "The device bits shown by the flight computer are the functional flags the attitude computer's devices had at most 37 program steps of its loop earlier.", "quantifier": "every history that includes one publication of the table", "why_tests_cant": "The claim ranges over all interleavings.", "anchors": ["src/adcs/main.cpp:update_havt", "src/adcs/havt.cpp:update_read_table", "src/fsw/FCCode/ADCSBoxMonitor.cpp:ADCSBoxMonitor::execute"]}
{"id": "C77", "title": "Attitude readings are flagged exactly when they are out of range", "statement": "Each out-of-range flag shown by the flight computer is raised exactly when the reading it belongs to is outside the documented range.", "quantifier": "every answer of the attitude computer", "why_tests_cant": "The claim ranges over all answers.", "anchors": ["src/fsw/FCCode/ADCSBoxMonitor.cpp:ADCSBoxMonitor::execute"]}
{"id": "C78", "title": "Every reading of the attitude computer can be transmitted", "statement": "Whatever the sensors deliver, each reading reaches the flight computer with an error of at most one step of its 16 bit scale.", "quantifier": "every sensor value and every history", "why_tests_cant": "The claim ranges over all sensor values.", "anchors": ["src/adcs/state_controller.cpp:on_i2c_request", "src/adcs/utl/convert.hpp", "src/fsw/FCCode/Drivers/ADCS.cpp"]}
{"id": "C79", "title": "Converter readings are two's complement", "statement": "The 12 bit value assembled from the two bytes of the analog-to-digital converter is the signed value the device sent.", "quantifier": "every pair of bytes", "why_tests_cant": "The claim ranges over the sign-extension corner values, which unit tests on the desktop do not compile.", "anchors": ["src/adcs/dev/ADS1015.cpp:ADS1015::end_read"]}
{"id": "C80", "title": "No command of the flight computer makes the attitude computer compute outside its number ranges", "statement": "No sequence of driver calls with documented argument ranges makes the attitude computer perform a conversion with undefined result.", "quantifier": "every sequence of driver calls and every interleaving with the loop", "why_tests_cant": "The claim ranges over all sequences and interleavings.", "anchors": ["src/adcs/rwa.cpp:actuate", "src/adcs/state_controller.cpp:on_i2c_recieve", "src/adcs/main.cpp:update_rwa"]}
{"id": "C81", "title": "Each automatic attitude state commands the actuators in its own way", "statement": "In each attitude state other than startup and manual, what is sent to the wheels and rods is determined by the state and the pointing controller's outputs alone; the attitude computer is passive in startup and active in every other state.", "quantifier": "every value of all command fields, including leftovers from earlier states", "why_tests_cant": "The claim ranges over all leftovers of command fields.", "anchors": ["src/fsw/FCCode/ADCSCommander.cpp:ADCSCommander::execute", "src/fsw/FCCode/ADCSBoxController.cpp:ADCSBoxController::execute"]}
{"id": "C82", "title": "A magnetometer calibration that is requested is performed", "statement": "A calibration requested by the flight computer is performed in the next pass of the attitude loop if the magnetometer is functional.", "quantifier": "every state and every moment of arrival", "why_tests_cant": "The claim ranges over all interleavings.", "anchors": ["src/adcs/main.cpp:update_imu", "src/adcs/imu.cpp:update_sensors"]}
{"id": "C83", "title": "An actuator command is carried out within a little more than one pass", "statement": "With the attitude computer active, a wheel or rod command in range is carried out, with an error of at most one step of the transmitted scale, within 44 program steps of the loop, if no further command arrives meanwhile.", "quantifier": "every state, command and interleaving of other traffic", "why_tests_cant": "The claim ranges over all interleavings.", "anchors": ["src/adcs/main.cpp:update_mtr", "src/adcs/main.cpp:update_rwa", "src/adcs/state_controller.cpp:on_i2c_recieve"]}
{"id": "C84", "title": "No control task begins before its slot", "statement": "In every control cycle each task begins no earlier than the cycle's start plus 1100 microseconds plus the durations of the tasks before it, whatever the tasks before it took and wherever the microsecond counter rolls over; so the last task of the flight computer begins at least 169.9 ms after the cycle's start.", "quantifier": "every sequence of clock readings less than 2^31 microseconds apart within the cycle and every list of task durations", "why_tests_cant": "The claim ranges over all execution times and counter values.", "anchors": ["src/fsw/FCCode/TimedControlTask.hpp:execute_on_time", "src/fsw/FCCode/ClockManager.cpp:ClockManager::execute", "src/fsw/FCCode/MainControlLoop.cpp:MainControlLoop::execute"]}
{"id": "C85", "title": "The average wait in telemetry is the mean of the waits", "statement": "The average-wait field of a task is the mean of the times the task waited in the cycles since boot.", "quantifier": "every sequence of waits shorter than 2^32 - 1 cycles", "why_tests_cant": "The claim ranges over unbounded sequences.", "anchors": ["src/fsw/FCCode/TimedControlTask.hpp:wait_until_time"]}
{"id": "C86", "title": "Thrust allocation spends least propellant", "statement": "Among all non-negative thruster impulses that give the commanded impulse, the controller's choice has the smallest sum, up to rounding.", "quantifier": "every impulse vector and every other allocation", "why_tests_cant": "The claim ranges over all of R^3 and all competing allocations.", "anchors": ["src/fsw/FCCode/OrbitController.cpp:OrbitController::schedule_valves"]}
{"id": "C87", "title": "A valve is opened for the longest whole millisecond count that does not exceed the wanted impulse", "statement": "For every wanted impulse x >= 0 the opening time t satisfies impulse(t) <= x < impulse(t + 1) by the thruster regression, or t = 0 and x < impulse(1); it is defined for all impulses up to 50000 Ns.", "quantifier": "every impulse", "why_tests_cant": "The claim ranges over all real impulses.", "anchors": ["src/fsw/FCCode/OrbitController.cpp:OrbitController::impulse_to_time", "src/fsw/FCCode/OrbitController.hpp"]}
{"id": "C88", "title": "Every impulse the orbit controller commands can be fired", "statement": "Whatever impulse the orbit controller computes within the range its telemetry field can carry (0.025 Ns), the valve times it writes are accepted by the propulsion controller.", "quantifier": "every impulse vector up to 0.025 Ns", "why_tests_cant": "The claim ranges over all impulse vectors, and the two tasks are tested apart.", "anchors": ["src/fsw/FCCode/OrbitController.cpp:OrbitController::schedule_valves", "src/fsw/FCCode/PropController.cpp:PropController::is_valid_schedule"]}
{"id": "C89", "title": "Firings are planned only with valid navigation and only as follower", "statement": "The commanded impulse, the valve times and the countdown to the firing change only in cycles in which time, orbit, attitude and relative orbit are valid and the mission state is follower or follower close approach; the countdown changes only while propulsion is idle, to the whole number of cycles until the firing node reached first, at most ten more than pressurization needs.", "quantifier": "every state and input", "why_tests_cant": "The claim ranges over all combinations of inputs.", "anchors": ["src/fsw/FCCode/OrbitController.cpp:OrbitController::execute", "src/fsw/FCCode/OrbitController.cpp:OrbitController::time_till_node"]}
{"id": "C90", "title": "The smoothed relative state lies between the measurements since the last outage", "statement": "Each component of the smoothed relative position and velocity lies between the least and the greatest measured since the last cycle without a relative orbit; after an outage smoothing restarts with the first measurement.", "quantifier": "every history, every sequence of smoothing constants between 0 and 1", "why_tests_cant": "The claim ranges over unbounded histories.", "anchors": ["src/fsw/FCCode/OrbitController.cpp:OrbitController::execute"]}
{"id": "C91", "title": "The countdown to a firing ends when the satellite is at a firing node", "statement": "On a circular orbit, when the countdown given by the orbit controller has run out the satellite is at one of the firing nodes, wherever on the orbit it was when the countdown was given; all nodes are used.", "quantifier": "every position on the orbit and every angular velocity", "why_tests_cant": "The claim ranges over all positions.", "anchors": ["src/fsw/FCCode/OrbitController.cpp:OrbitController::execute", "src/fsw/FCCode/OrbitController.cpp:OrbitController::time_till_node"]}
{"id": "C92", "title": "The number of near-field firing nodes can be commanded", "statement": "In the near field the satellite fires at as many nodes per orbit as commanded, spread over the orbit, and each firing is reduced in proportion.", "quantifier": "every number of nodes in the field's range and every sequence of commands", "why_tests_cant": "The claim ranges over all numbers and sequences of commands.", "anchors": ["src/fsw/FCCode/OrbitController.cpp:OrbitController::node_generator", "src/fsw/FCCode/OrbitController.cpp:OrbitController::calculate_impulse"]}
{"id": "C93", "title": "No firing after the satellite has left the follower states", "statement": "While the mission state is neither follower nor follower close approach, no firing starts.", "quantifier": "every run of the orbit and propulsion controllers", "why_tests_cant": "The claim ranges over all runs; the tasks are tested apart.", "anchors": ["src/fsw/FCCode/OrbitController.cpp:OrbitController::execute", "src/fsw/FCCode/PropController.cpp:PropController::execute"]}
{"id": "C94", "title": "A firing that starts uses the valve times of the latest impulse", "statement": "When a firing starts, and is counted, the thrusters are loaded with the valve times the orbit controller wrote last.", "quantifier": "every run of the orbit and propulsion controllers", "why_tests_cant": "The claim ranges over all runs; the tasks are tested apart.", "anchors": ["src/fsw/FCCode/OrbitController.cpp:OrbitController::schedule_valves", "src/fsw/FCCode/PropController.cpp:PropState_AwaitFiring::evaluate", "src/fsw/FCCode/Drivers/PropulsionSystem.cpp:set_schedule"]}
{"id": "C95", "title": "A planned firing leaves propulsion the time it needs to pressurize", "statement": "The countdown given by the orbit controller is never shorter than the number of cycles the pressurization may take under the current parameters.", "quantifier": "every position on the orbit and all parameters", "why_tests_cant": "The claim ranges over all positions and parameters; the tasks are tested apart.", "anchors": ["src/fsw/FCCode/OrbitController.cpp:OrbitController::execute", "src/fsw/FCCode/OrbitController.cpp:OrbitController::prop_min_cycles_needed", "src/fsw/FCCode/PropController.cpp:PropController::min_cycles_needed"]}
{"id": "C96", "title": "A value of a floating point field survives telemetry to within one step", "statement": "For every float or double field whose limits are finite and apart and which has at most two bits fewer than the type's precision, encoding any value other than NaN and decoding it again gives the value moved into the limits, to within one step of the encoding plus a rounding allowance of 8 * 2^-precision * (|min| + |max|); every such field of the flight software meets these conditions and its allowance is at most one step.", "quantifier": "every declaration, every value including infinities, any content of the field before", "why_tests_cant": "The claim ranges over 2^32 or 2^64 values for every declaration.", "anchors": ["src/common/SerializerTypes.inl:FloatDoubleSerializer"]}
{"id": "C97", "title": "Every received pattern decodes to a value within the field's limits", "statement": "Whatever bits the ground or an error on the link puts into a float or double field, the value read is within the declared limits.", "quantifier": "every declaration and every bit pattern", "why_tests_cant": "The claim ranges over all declarations and patterns.", "anchors": ["src/common/SerializerTypes.inl:FloatDoubleSerializer"]}
{"id": "C98", "title": "Telemetry of floating point fields preserves order", "statement": "If one value is at most another after moving both into the limits, its code is at most the other's, and so is the value decoded on the ground.", "quantifier": "every declaration, every pair of values", "why_tests_cant": "The claim ranges over all pairs of values.", "anchors": ["src/common/SerializerTypes.inl:FloatDoubleSerializer"]}
{"id": "C99", "title": "A commanded floating point value is reported back as the same code", "statement": "When the ground sets a float or double field by a code and telemetry encodes the value the field then has, the code reported is the one sent.", "quantifier": "every declaration and every code", "why_tests_cant": "The claim ranges over all declarations and codes.", "anchors": ["src/common/SerializerTypes.inl:FloatDoubleSerializer"]}
{"id": "C100", "title": "Every value a floating point field can hold can be encoded", "statement": "Encoding a float or double field is defined for every value the field can take.", "quantifier": "every declaration, every value including NaN and infinities", "why_tests_cant": "The claim ranges over all values; undefined conversions go unnoticed in a test.", "anchors": ["src/common/SerializerTypes.inl:FloatDoubleSerializer"]}
{"id": "C101", "title": "The limits of a floating point field are transmitted exactly", "statement": "A field at (or beyond) its lower or upper limit is decoded as exactly that limit.", "quantifier": "every declaration", "why_tests_cant": "The claim ranges over all declarations.", "anchors": ["src/common/SerializerTypes.inl:FloatDoubleSerializer"]}
{"id": "C102", "title": "A floating point field may be declared with any width and limits", "statement": "For every number of bits up to 64 and every pair of limits the constructor accepts, encoding is defined and its result depends on the value only.", "quantifier": "every width, every pair of limits, every value", "why_tests_cant": "The claim ranges over all declarations.", "anchors": ["src/common/SerializerTypes.inl:FloatDoubleSerializer", "src/fsw/FCCode/ADCSCommander.cpp:rwa_speed_cmd_f"]}
{"id": "C103", "title": "A vector survives telemetry to within the declared precision", "statement": "For every vector field and every vector, encoding and decoding gives the vector (its length moved into the limits) to within the Euclidean distance the declaration promises, (max - min) / 2^precision.", "quantifier": "every declaration with 0 <= min < max, every vector", "why_tests_cant": "The claim ranges over all declarations and vectors.", "anchors": ["src/common/SerializerTypes.inl:VectorSerializer", "src/common/StateFieldRegistry.hpp"]}
{"id": "C104", "title": "Telemetry never reverses a component of a vector", "statement": "A component of a vector whose magnitude exceeds twice the declared precision is decoded with the sign it had.", "quantifier": "every declaration with 0 <= min < max, every vector of a length within the limits", "why_tests_cant": "The claim ranges over all vectors, in particular those with a zero component.", "anchors": ["src/common/SerializerTypes.inl:VectorSerializer", "src/common/StateFieldRegistry.hpp"]}
{"id": "C105", "title": "Every vector a field can hold can be encoded", "statement": "Encoding a vector field is defined for every finite vector, including the zero vector fields start with.", "quantifier": "every declaration with 0 <= min < max, every finite vector", "why_tests_cant": "The claim ranges over all vectors; an undefined conversion goes unnoticed in a test.", "anchors": ["src/common/SerializerTypes.inl:VectorSerializer", "src/common/StateFieldRegistry.hpp"]}
{"id": "C106", "title": "Every received pattern decodes to a vector whose length is within the limits", "statement": "Whatever bits the ground or an error on the link puts into a vector field, the vector read has a length between the declared limits.", "quantifier": "every declaration with 0 <= min < max, every bit pattern of the field's size", "why_tests_cant": "The claim ranges over 2^100 patterns.", "anchors": ["src/common/SerializerTypes.inl:VectorSerializer", "src/common/StateFieldRegistry.hpp"]}
{"id": "C107", "title": "An attitude quaternion survives telemetry as the same rotation", "statement": "Encoding any quaternion other than zero in 32 bits and decoding it gives a quaternion which, up to sign, agrees with the normalized original to within 0.006 in each component.", "quantifier": "every quaternion other than zero", "why_tests_cant": "The claim ranges over all quaternions.", "anchors": ["src/common/SerializerTypes.inl:QuaternionSerializer"]}
{"id": "C108", "title": "Every received pattern decodes to an attitude", "statement": "Whatever 32 bits are received for a quaternion field, the quaternion read has norm one.", "quantifier": "every pattern of 32 bits", "why_tests_cant": "The claim ranges over all 2^32 patterns in a test of acceptable length.", "anchors": ["src/common/SerializerTypes.inl:QuaternionSerializer"]}
{"id": "C109", "title": "Every quaternion a field can hold can be encoded", "statement": "Encoding a quaternion field is defined for every finite quaternion.", "quantifier": "every finite quaternion", "why_tests_cant": "The claim ranges over all quaternions; an undefined conversion goes unnoticed in a test.", "anchors": ["src/common/SerializerTypes.inl:QuaternionSerializer"]}
{"id": "C110", "title": "A filter constant governs the reading it is named for", "statement": "With filter constant f the new reading of each sensor lies the part f of the way from the previous reading to the fresh one; the constants for wheel speed, wheel ramp, sun sensors, magnetometers, gyroscope and gyroscope temperature each act on their own reading.", "quantifier": "every state, every sensor input, every constant", "why_tests_cant": "The claim ranges over all constants, states and inputs.", "anchors": ["src/adcs/rwa.cpp:update_sensors", "src/adcs/ssa.cpp:update_sensors", "src/adcs/imu.cpp:update_sensors"]}
{"id": "C111", "title": "A lost sensor leaves its last reading standing", "statement": "When a sensor of the attitude computer is out of use or does not answer, the reading derived from it stays at its last value.", "quantifier": "every state, every sensor input", "why_tests_cant": "The claim ranges over all states, and repeated passes without a sensor.", "anchors": ["src/adcs/rwa.cpp:update_sensors", "src/adcs/ssa.cpp:update_sensors", "src/adcs/imu.cpp:update_sensors"]}
{"id": "C112", "title": "Printing a field stays inside its text buffer", "statement": "The text of every value a field of any type can hold, with its terminator, fits in the buffer the field allocated for it.", "quantifier": "every field type and every value", "why_tests_cant": "The claim ranges over all values; writing past a heap buffer goes unnoticed in a test.", "anchors": ["src/common/SerializerTypes.inl:print", "src/common/SerializerTypes.inl:VectorSerializerFns::vector_print", "src/common/debug_console.cpp:print_state_field"]}
{"id": "C113", "title": "A printed value can be typed back in", "statement": "The text a field prints, given back to a field of the same type, restores its value: exactly for booleans, integers and GPS times, to half a millionth for floating point numbers, component by component for vectors.", "quantifier": "every field type and every value", "why_tests_cant": "The claim ranges over all values.", "anchors": ["src/common/SerializerTypes.inl:print", "src/common/SerializerTypes.inl:VectorSerializerFns::vector_print", "src/common/debug_console.cpp:print_state_field", "src/common/SerializerTypes.inl:deserialize", "src/common/SerializerTypes.inl:VectorSerializerFns::deserialize_vector_str", "src/common/debug_console.cpp:process_commands"]}
{"id": "C114", "title": "A value typed in is within the limits of its field or rejected", "statement": "A number given as text either lies within the limits the integer field was declared with, or is rejected and changes nothing.", "quantifier": "every integer field and every text", "why_tests_cant": "The claim ranges over all texts.", "anchors": ["src/common/SerializerTypes.inl:deserialize", "src/common/SerializerTypes.inl:VectorSerializerFns::deserialize_vector_str", "src/common/debug_console.cpp:process_commands"]}
{"id": "C115", "title": "A vector typed in has the right number of components or is rejected", "statement": "A text of numbers separated by commas sets a vector field exactly if it has as many numbers as the vector components; otherwise it is rejected.", "quantifier": "every vector field, every list of numbers", "why_tests_cant": "The claim ranges over all lists of numbers.", "anchors": ["src/common/SerializerTypes.inl:deserialize", "src/common/SerializerTypes.inl:VectorSerializerFns::deserialize_vector_str", "src/common/debug_console.cpp:process_commands"]}
{"id": "C116", "title": "Messages of the GPS receiver are recognised however the bytes are grouped", "statement": "Over any number of readings the parser delivers, in order, exactly the messages contained in the stream of bytes received: marks are searched between messages, the announced length and the checksum (remainder modulo x^16+x^12+x^5+1) decide, and it does not matter how the bytes are distributed over the readings.", "quantifier": "every stream of bytes, every division into readings, every initial content of the parser's memory", "why_tests_cant": "The claim ranges over all streams and divisions.", "anchors": ["src/fsw/FCCode/Drivers/Piksi.cpp:read_all", "lib/common/libsbp/src/sbp.c:sbp_process", "lib/common/libsbp/src/edc.c:crc16_ccitt"]}
{"id": "C117", "title": "A damaged GPS message is never used", "statement": "If a message is changed on the way within 16 consecutive bits, its length byte excepted, the change is noticed, and the published data stays as it was.", "quantifier": "every message, every change within 16 consecutive bits", "why_tests_cant": "The claim ranges over all messages and changes.", "anchors": ["src/fsw/FCCode/Drivers/Piksi.cpp:read_all", "lib/common/libsbp/src/sbp.c:sbp_process", "lib/common/libsbp/src/edc.c:crc16_ccitt", "src/fsw/FCCode/PiksiControlTask.cpp:execute"]}
{"id": "C118", "title": "Reading the GPS receiver ends and stays inside its buffers", "statement": "For every sequence of received bytes, timer interrupts and control cycles, every reading ends, and no buffer of the driver or the parser is read or written outside its bounds.", "quantifier": "every sequence of bytes, interrupts and control cycles from power-up", "why_tests_cant": "The claim ranges over unbounded sequences; an overrun goes unnoticed in a test.", "anchors": ["src/fsw/FCCode/Drivers/Piksi.cpp:read_all", "lib/common/libsbp/src/sbp.c:sbp_process", "lib/common/libsbp/src/edc.c:crc16_ccitt"]}
{"id": "C119", "title": "A GPS message shorter than its format is not used", "statement": "If a navigation message ends before all fields of its format were sent, nothing is published from it.", "quantifier": "every history of readings", "why_tests_cant": "The claim ranges over all histories.", "anchors": ["src/fsw/FCCode/PiksiControlTask.cpp:execute", "src/fsw/FCCode/Drivers/Piksi.cpp:read_all", "src/fsw/FCCode/Drivers/Piksi.cpp:pos_ecef_callback"]}
{"id": "C120", "title": "Published GPS time, position, velocity and baseline belong to one instant", "statement": "Whenever a control cycle publishes GPS data, the time, position and velocity (and the baseline, in the relative modes) come from messages completed in that cycle, all good, with the same time of week, from at least four satellites, read within 100 ms; in every other cycle the published data is unchanged and the mode says so.", "quantifier": "every history of readings in which navigation messages have the length of their format", "why_tests_cant": "The claim ranges over all histories.", "anchors": ["src/fsw/FCCode/PiksiControlTask.cpp:execute", "src/fsw/FCCode/Drivers/Piksi.cpp:read_all"]}
{"id": "C121", "title": "Velocity and baseline are published in metres per second and metres", "statement": "The velocity and the baseline published are the ones the receiver measured, in the units the rest of the software works in, metres per second and metres.", "quantifier": "every history of readings", "why_tests_cant": "The claim ranges over all histories; the test receiver already speaks in metres.", "anchors": ["src/fsw/FCCode/PiksiControlTask.cpp:execute", "src/fsw/FCCode/Drivers/Piksi.cpp:read_all", "lib/common/libsbp/include/libsbp/navigation.h:msg_vel_ecef_t"]}
{"id": "C122", "title": "The published GPS delay is the age of the data", "statement": "The delay published with GPS data is the time since its first byte was seen.", "quantifier": "every pattern of arrival", "why_tests_cant": "The claim ranges over all patterns of arrival.", "anchors": ["src/fsw/FCCode/Drivers/Piksi.cpp:check_bytes", "src/fsw/FCCode/Drivers/Piksi.cpp:read_all"]}
{"id": "C123", "title": "A complete set of GPS navigation messages is used", "statement": "When time, position and velocity of one instant from at least four satellites arrive undamaged and in time, they are published.", "quantifier": "every history of readings", "why_tests_cant": "The claim ranges over all histories.", "anchors": ["src/fsw/FCCode/PiksiControlTask.cpp:execute", "src/fsw/FCCode/Drivers/Piksi.cpp:read_all"]}
{"id": "C124", "title": "The time estimate is valid exactly when a GPS reading arrived since the last reset", "statement": "time.valid holds after a control cycle exactly if in this or an earlier cycle the receiver had a position, time was not reset in that cycle, and it has not been reset since.", "quantifier": "every sequence of control cycles from power-up", "why_tests_cant": "The claim ranges over all sequences of cycles.", "anchors": ["src/fsw/FCCode/Estimators/TimeEstimator.cpp:execute"]}
{"id": "C125", "title": "The time estimate is the last GPS time plus the time passed", "statement": "time.gps is the time of the last GPS reading plus its age plus 170 ms for every control cycle since, exactly to the nanosecond and however many weeks that takes; time.ns is that minus the mission epoch (modulo 2^64).", "quantifier": "every sequence of control cycles since the reading, as long as the sum is below 2^64 ns (the year 2564)", "why_tests_cant": "The claim ranges over unbounded numbers of cycles.", "anchors": ["src/fsw/FCCode/Estimators/TimeEstimator.cpp:execute", "src/common/GPSTime.hpp:gps_time_t", "src/fsw/FCCode/PiksiControlTask.cpp:execute"]}
{"id": "C126", "title": "An estimate is never valid without the estimates and sensors it is built on", "statement": "After every control cycle: a valid orbit implies a valid time; a relative orbit that is not invalid implies a valid orbit; a valid attitude implies a valid orbit, a working gyro and a working magnetometer in this very cycle.", "quantifier": "every sequence of control cycles from power-up, every behaviour of the numerical library", "why_tests_cant": "The claim ranges over all sequences of cycles.", "anchors": ["src/fsw/FCCode/Estimators/OrbitEstimator.cpp:execute", "src/fsw/FCCode/Estimators/RelativeOrbitEstimator.cpp:execute", "src/fsw/FCCode/Estimators/AttitudeEstimator.cpp:_execute"]}
{"id": "C127", "title": "A reset command is obeyed at once and what came before it is forgotten", "statement": "In the cycle in which a reset of an estimate is commanded it and all estimates built on it become invalid; what is published as valid after a reset of time depends only on what was received since.", "quantifier": "every pair of histories before the reset, every history after it", "why_tests_cant": "The claim ranges over pairs of histories are compared.", "anchors": ["src/fsw/FCCode/Estimators/TimeEstimator.cpp:execute", "src/fsw/FCCode/Estimators/OrbitEstimator.cpp:execute", "src/fsw/FCCode/Estimators/RelativeOrbitEstimator.cpp:execute", "src/fsw/FCCode/Estimators/AttitudeEstimator.cpp:_execute"]}
{"id": "C128", "title": "Without RTK readings a relative estimate is given up after 5000 cycles, not before and not much later", "statement": "A relative estimate that got an RTK reading at most 5000 cycles ago is kept, as long as orbit and time stay valid and no reset is commanded; after 5002 cycles without RTK reading the state is not estimating.", "quantifier": "every history", "why_tests_cant": "The claim ranges over runs of thousands of cycles after every possible past.", "anchors": ["src/fsw/FCCode/Estimators/RelativeOrbitEstimator.cpp:execute"]}
{"id": "C129", "title": "The relative velocity an estimate starts with is the change of the baseline over the time between the two readings", "statement": "When the relative estimate is started from two RTK readings, the library is given the second baseline and the difference of the two baselines divided by the time between the two readings.", "quantifier": "every history ending in the start of an estimate", "why_tests_cant": "The claim ranges over all histories.", "anchors": ["src/fsw/FCCode/Estimators/RelativeOrbitEstimator.cpp:execute"]}
{"id": "C130", "title": "An orbit of the other satellite uplinked for a future time is used when that time comes", "statement": "If ground uplinks position and velocity of the other satellite for a future time, and there is no RTK estimate, then (whatever else is uplinked for later times, before or after) in the first control cycle after that time the published state of the other satellite is the uplinked one, propagated to the present.", "quantifier": "every history, every uplinked time", "why_tests_cant": "The claim ranges over all histories and times.", "anchors": ["src/fsw/FCCode/Estimators/RelativeOrbitEstimator.cpp:execute"]}
{"id": "C131", "title": "Absolute and relative state published for the other satellite belong together", "statement": "After every control cycle rel_orbit.state is invalid, propagating or estimating; if estimating, the other satellite's position and velocity are this satellite's plus the relative ones of the same cycle; if propagating, the relative ones are the difference.", "quantifier": "every sequence of control cycles, every behaviour of the numerical library", "why_tests_cant": "The claim ranges over all sequences of cycles.", "anchors": ["src/fsw/FCCode/Estimators/RelativeOrbitEstimator.cpp:execute"]}
{"id": "C132", "title": "The magnetic field published is that of a working magnetometer, of the preferred one if it works", "statement": "The magnetic field is marked valid exactly if one of the two magnetometers works in this cycle; it is then the reading of the one ground prefers if that works and otherwise of the other, each with its own correction for the rods' command of the cycle before.", "quantifier": "every sequence of control cycles", "why_tests_cant": "The claim ranges over all sequences of cycles.", "anchors": ["src/fsw/FCCode/Estimators/AttitudeEstimator.cpp:_execute"]}
{"id": "C133", "title": "Every cycle without attitude estimate counts for the attitude fault", "statement": "In every control cycle the attitude fault is evaluated once, as failing exactly if no valid attitude is published in that cycle.", "quantifier": "every sequence of control cycles", "why_tests_cant": "The claim ranges over all sequences of cycles.", "anchors": ["src/fsw/FCCode/Estimators/AttitudeEstimator.cpp:_execute"]}
{"id": "C134", "title": "The attitude controller never commands anything that is not a number", "statement": "After every control cycle the torque and the magnetic moment suggested by the attitude controller are finite, whatever the sensors, ground and the control laws deliver.", "quantifier": "every sequence of control cycles, every behaviour of the numerical library", "why_tests_cant": "The claim ranges over all behaviours of the control laws.", "anchors": ["src/fsw/FCCode/AttitudeController.cpp:execute"]}
{"id": "C135", "title": "Without an attitude estimate the wheels are commanded no torque", "statement": "In a control cycle in which no valid attitude is published the attitude controller suggests no torque, and no magnetic moment unless it is detumbling with a working magnetometer.", "quantifier": "every history, every ADCS mode", "why_tests_cant": "The claim ranges over all histories.", "anchors": ["src/fsw/FCCode/AttitudeController.cpp:execute"]}
{"id": "C136", "title": "In manual pointing the satellite points as ground told it to", "statement": "In mode point_manual with valid attitude and with the pointing vectors written by ground, the suggested torque is the one the pointing law gives for these vectors.", "quantifier": "every history", "why_tests_cant": "The claim ranges over all histories.", "anchors": ["src/fsw/FCCode/AttitudeController.cpp:execute", "src/fsw/FCCode/AttitudeController.cpp:calculate_pointing_controller"]}
{"id": "C137", "title": "In docking mode the docking face is turned to the other satellite, and nothing is done if its place is not known", "statement": "In mode point_docking the vector to be aligned first is the docking face with the direction to the other satellite, the second the antenna face with the radial direction; if the place of the other satellite is unknown no torque and no magnetic moment is suggested.", "quantifier": "every history", "why_tests_cant": "The claim ranges over all histories.", "anchors": ["src/fsw/FCCode/AttitudeController.cpp:calculate_pointing_objectives"]}
{"id": "C138", "title": "A device of the attitude computer that cannot be reached three times running is taken out of use, and no other", "statement": "After a reset, each gyroscope, magnetometer or converter is taken out of use (its 'functional' flag reads false) exactly if three readings in a row failed for bus errors.", "quantifier": "every behaviour of the bus, any number of readings", "why_tests_cant": "The claim ranges over all interleavings of bus errors.", "anchors": ["src/adcs/dev/I2CDevice.inl", "src/adcs/dev/LSM6DSM.cpp", "src/adcs/dev/LIS2MDLTR.cpp", "src/adcs/dev/MMC34160PJ.cpp", "src/adcs/dev/ADS1015.cpp"]}
{"id": "C139", "title": "A reset of a device ends after at most three attempts and tells whether one succeeded", "statement": "Whatever the bus does, resetting a device sends its configuration until it was received without error, at most three times; the device is in use afterwards exactly if one attempt succeeded.", "quantifier": "every behaviour of the bus, every previous state of the driver", "why_tests_cant": "The claim ranges over all bus behaviours.", "anchors": ["src/adcs/dev/I2CDevice.inl:reset,i2c_pop_errors", "src/adcs/dev/LSM6DSM.cpp:reset", "src/adcs/dev/LIS2MDLTR.cpp:reset", "src/adcs/dev/MMC34160PJ.cpp:reset", "src/adcs/dev/ADS1015.cpp:reset", "src/adcs/dev/AD5254.cpp:reset"]}
{"id": "C140", "title": "A sensor reading that is used was received completely and is what the device sent", "statement": "A reading of the gyroscope, a magnetometer or a converter is used only if every bus call of its exchange succeeded; the values are those the device coded in two's complement, over the full range.", "quantifier": "every behaviour of the bus, all values", "why_tests_cant": "The claim ranges over all patterns of bus errors and all values.", "anchors": ["src/adcs/dev/I2CDevice.inl", "src/adcs/dev/LSM6DSM.cpp", "src/adcs/dev/LIS2MDLTR.cpp", "src/adcs/dev/MMC34160PJ.cpp", "src/adcs/dev/ADS1015.cpp"]}
{"id": "C141", "title": "After a calibration the second magnetometer goes on measuring", "statement": "Once a calibration has returned with the device still in use, every later pass of the main loop reads the field as it is then.", "quantifier": "every failure of a bus call during the calibration", "why_tests_cant": "The claim ranges over all positions of a bus error in a sequence of 48 calls.", "anchors": ["src/adcs/dev/MMC34160PJ.cpp:calibrate,single_read", "src/adcs/imu.cpp"]}
{"id": "C142", "title": "Readings of the second magnetometer have the sign of the field once it was calibrated and reset", "statement": "After a successful calibration, and after any later reset that succeeded, readings are half the field with its sign.", "quantifier": "every failure of a bus call before the reset", "why_tests_cant": "The claim ranges over all positions of a bus error.", "anchors": ["src/adcs/dev/MMC34160PJ.cpp:calibrate,reset", "src/adcs/dev/MMC34160PJ.hpp:get_x"]}
{"id": "C143", "title": "Every call of a device driver returns", "statement": "Conversions, readings and the calibration return in every case, so the main loop of the attitude computer goes on.", "quantifier": "every behaviour of the bus and of the device", "why_tests_cant": "The claim ranges over termination for all device behaviours.", "anchors": ["src/adcs/dev/ADS1015.cpp:end_read", "src/adcs/dev/MMC34160PJ.cpp:single_read"]}
{"id": "C144", "title": "A low battery brings the satellite to safehold", "statement": "With the battery below the threshold for longer than the fault's persistence, a satellite that is past startup and not under manual control is in safehold, with attitude control and propulsion off, one control cycle later (faults and handlers enabled, no override by ground).", "quantifier": "every flight from boot of fewer than 2^32 cycles, every persistence and threshold, every mission state", "why_tests_cant": "The claim ranges over flights of any length through all tasks.", "anchors": ["src/fsw/FCCode/GomspaceController.cpp:execute", "src/common/Fault.cpp", "src/fsw/FCCode/SimpleFaultHandler.cpp", "src/fsw/FCCode/MainFaultHandler.cpp", "src/fsw/FCCode/MissionManager.cpp:execute"]}
{"id": "C145", "title": "The satellite goes to safehold by itself when, and only when, a condition has lasted longer than its persistence", "statement": "In a mission state in which a battery, wheel or attitude fault counts, safehold is entered in the very cycle in which its condition has been present for more than persistence cycles without a break; and safehold is never entered by itself without such a condition, except for a radio silent through all its power cycles or from a mission state that does not exist.", "quantifier": "every flight from boot of fewer than 2^32 cycles in which ground does not command these faults", "why_tests_cant": "The claim ranges over flights of any length through all tasks.", "anchors": ["src/common/Fault.cpp", "src/fsw/FCCode/SimpleFaultHandler.cpp", "src/fsw/FCCode/MainFaultHandler.cpp", "src/fsw/FCCode/MissionManager.cpp:execute", "src/fsw/FCCode/ADCSBoxMonitor.cpp:execute", "src/fsw/FCCode/Estimators/AttitudeEstimator.cpp:_execute"]}
{"id": "C146", "title": "At the end of the deployment wait the satellite holds if its attitude hardware has been failing, and detumbles otherwise", "statement": "When startup ends, the next mission state is initialization hold exactly if the attitude computer, a wheel or the wheel potentiometer has been reported bad for more than its persistence in cycles without a break up to this one; else detumble. In both cases the attitude mode is detumble, propulsion idle and its power on.", "quantifier": "every flight from boot of fewer than 2^32 cycles", "why_tests_cant": "The claim ranges over flights of any length.", "anchors": ["src/fsw/FCCode/MissionManager.cpp:dispatch_startup,check_adcs_hardware_faults", "src/fsw/FCCode/ADCSBoxMonitor.cpp:execute", "src/common/Fault.cpp"]}
{"id": "C147", "title": "A table of telemetry flows is accepted only if ground can tell its flows apart", "statement": "The downlink producer accepts a flow table exactly if every id lies between 1 and the number of flows, no two flows share an id and every flow fits a packet; it keeps ids, active flags and fields as given.", "quantifier": "every table of 1 to 255 flows", "why_tests_cant": "The claim ranges over all tables; the table in use has distinct ids.", "anchors": ["src/fsw/FCCode/DownlinkProducer.cpp:init_flows,Flow::Flow", "src/common/DownlinkParser.cpp", "src/flow_data.cpp"]}
{"id": "C148", "title": "Messages typed on one console line are each carried out once, in order", "statement": "A line of reads, writes and uplinks from the test computer has the effect of its messages one after the other, each answered once; nothing else is carried out.", "quantifier": "every line that fits the buffer, every JSON library, every contents of the stack", "why_tests_cant": "The claim ranges over all lines and all library behaviours.", "anchors": ["src/common/debug_console.cpp:process_commands"]}
{"id": "C149", "title": "An uplink entered at the console is handed on byte for byte", "statement": "The bytes written as the test computer writes them stand in the radio's packet buffer with their number, as if received over the radio.", "quantifier": "every sequence of bytes that fits a packet, every contents of the stack", "why_tests_cant": "The claim ranges over all packets.", "anchors": ["src/common/debug_console.cpp:process_commands", "ptest/usb_session.py:send_uplink"]}
{"id": "C150", "title": "A console message that cannot be read does nothing", "statement": "A message the JSON library rejects changes no field and is not answered.", "quantifier": "every line, every JSON library, every contents of the stack", "why_tests_cant": "The claim ranges over uninitialised memory.", "anchors": ["src/common/debug_console.cpp:process_commands"]}
{"id": "C151", "title": "The console always returns to the flight software", "statement": "Processing a line of commands ends, whatever is on the line.", "quantifier": "every line, every JSON library", "why_tests_cant": "The claim ranges over termination for all lines.", "anchors": ["src/common/debug_console.cpp:process_commands"]}
{"id": "C152", "title": "Single stepping runs one control cycle per start command", "statement": "With automatic cycling off, as many control cycles are run as lines have left cycle.start set, each waiting for its line; with automatic cycling on no cycle waits and each takes one line.", "quantifier": "every sequence of lines of reads and writes, every number of cycles, every behaviour of the other tasks", "why_tests_cant": "The claim ranges over sequences of any length.", "anchors": ["src/fsw/FCCode/DebugTask.cpp:execute", "src/common/debug_console.cpp:process_commands"]}
{"id": "C153", "title": "A device of the flight computer that fails three times in a row is declared non-functional, and no other", "statement": "is_functional() of an i2c device tells whether fewer than three communications in a row have failed.", "quantifier": "every behaviour of the bus, every sequence of communications", "why_tests_cant": "The claim ranges over all sequences of bus errors.", "anchors": ["src/fsw/FCCode/Devices/I2CDevice.cpp:setup,is_functional", "src/fsw/FCCode/Devices/I2CDevice.inl:i2c_pop_errors", "src/fsw/FCCode/Devices/I2CDevice.hpp"]}
{"id": "C154", "title": "A device that was disabled stays disabled until it is reset", "statement": "After disable(), no sequence of communications and setups makes is_functional() true; reset() does, and makes the data count as valid.", "quantifier": "every behaviour of the bus, every sequence of operations shorter than 2^30", "why_tests_cant": "The claim ranges over all sequences.", "anchors": ["src/fsw/FCCode/Devices/I2CDevice.cpp:disable,reset,setup"]}
{"id": "C155", "title": "Data of a device count as valid exactly if the last communication with it succeeded", "statement": "i2c_data_is_valid() is true after a communication without error and false after one with an error.", "quantifier": "every behaviour of the bus, every sequence of communications", "why_tests_cant": "The claim ranges over all sequences of bus errors.", "anchors": ["src/fsw/FCCode/Devices/I2CDevice.inl:i2c_data_is_valid,i2c_pop_errors", "src/fsw/FCCode/Devices/I2CDevice.hpp"]}
{"id": "C156", "title": "The timeout of a device is what was asked for, in milliseconds", "statement": "i2c_get_timeout() returns the value given to the constructor or to i2c_set_timeout() last.", "quantifier": "every value of 32 bits", "why_tests_cant": "The claim ranges over all values.", "anchors": ["src/fsw/FCCode/Devices/I2CDevice.inl:i2c_set_timeout,i2c_get_timeout", "src/fsw/FCCode/Devices/I2CDevice.cpp:I2CDevice", "src/fsw/FCCode/Drivers/Gomspace.cpp:gomspace_timeout"]}
{"id": "C157", "title": "A failed reading of the power supply's housekeeping is noticed and leaves the old data", "statement": "If the supply does not answer, answers with an error code or with another message, the housekeeping fault is signalled in that control cycle and the telemetered values stay as they were.", "quantifier": "every reply of the supply, complete or not, every contents of the stack, every state of the controller", "why_tests_cant": "The claim ranges over all replies and uninitialised memory.", "anchors": ["src/fsw/FCCode/Drivers/Gomspace.cpp:get_hk", "src/fsw/FCCode/GomspaceController.cpp:execute"]}
{"id": "C158", "title": "The telemetered values of the power supply are those it sent", "statement": "After a successful reading each of the 31 telemetered values is the one the supply coded in its reply, over the full range of the field.", "quantifier": "every reply, every contents of the stack, every state of the controller", "why_tests_cant": "The claim ranges over all values of all fields.", "anchors": ["src/fsw/FCCode/Drivers/Gomspace.cpp:get_hk,_hk_vi_endian_flip,_hk_out_endian_flip,_hk_wdt_endian_flip,_hk_basic_endian_flip", "src/fsw/FCCode/GomspaceController.cpp:execute"]}
{"id": "C159", "title": "A partial reading of the power supply's data agrees with a full one", "statement": "Reading only the voltages and currents, the outputs, the watchdogs or the basic values replaces exactly that part of the data, by the values a full reading would give.", "quantifier": "all values, every previous contents of the data and of the stack", "why_tests_cant": "The claim ranges over all values of all fields.", "anchors": ["src/fsw/FCCode/Drivers/Gomspace.cpp:get_hk_vi,get_hk_out,get_hk_wdt,get_hk_basic,get_hk"]}
{"id": "C160", "title": "An output of the power supply is switched as asked, after the delay asked for", "statement": "set_single_output sends one message by which the supply understands output, level and delay as given, and none if output or level do not exist.", "quantifier": "all outputs, levels and delays", "why_tests_cant": "The claim ranges over all delays; the desktop build does not swap bytes.", "anchors": ["src/fsw/FCCode/Drivers/Gomspace.cpp:set_single_output"]}
{"id": "C161", "title": "The power supply's configuration can be read", "statement": "config_get and config2_get store the configuration sent by the supply for the caller.", "quantifier": "every reply", "why_tests_cant": "The claim ranges over memory safety; the desktop build leaves the code out.", "anchors": ["src/fsw/FCCode/Drivers/Gomspace.cpp:config_get,config2_get"]}
{"id": "C162", "title": "A configuration written to the power supply arrives as given, and success is reported exactly if it was acknowledged", "statement": "config_set and config2_set send every field of the struct with its value, most significant byte first; the second configuration is committed exactly if the supply acknowledged it.", "quantifier": "all values of all fields, every complete acknowledgement", "why_tests_cant": "The claim ranges over all values.", "anchors": ["src/fsw/FCCode/Drivers/Gomspace.cpp:config_set,config2_set,_config2_confirm,_check_for_error"]}
{"id": "C163", "title": "The default configuration of the power supply can be restored", "statement": "restore_default_config2 tells the supply to take the default configuration.", "quantifier": "every state", "why_tests_cant": "The claim ranges over meaning of messages to absent hardware.", "anchors": ["src/fsw/FCCode/Drivers/Gomspace.cpp:restore_default_config2"]}
{"id": "C164", "title": "Switching the heater reports success only if the supply reports the heater switched", "statement": "turn_on_heater and turn_off_heater return true only if the reply says the heater is in the state asked for.", "quantifier": "every complete reply", "why_tests_cant": "The claim ranges over all replies; the desktop build has no replies.", "anchors": ["src/fsw/FCCode/Drivers/Gomspace.cpp:_set_heater"]}
{"id": "C165", "title": "Each reset command to the power supply is sent exactly once", "statement": "A counter-reset, hard-reset or reboot command set by ground is sent once in the next control cycle and cleared; none is sent without a command.", "quantifier": "every control cycle, every behaviour of the supply, every contents of the stack", "why_tests_cant": "The claim ranges over all replies.", "anchors": ["src/fsw/FCCode/GomspaceController.cpp:execute", "src/fsw/FCCode/Drivers/Gomspace.cpp:reset_counters,hard_reset,reboot"]}
{"id": "C166", "title": "The telemetry table that flies is accepted at boot and its frames always fit the buffer", "statement": "With the flow table and the fields of the flight build every field is found, all 43 flows are accepted, and through any sequence of cycles and toggle commands every frame stays inside the 554-byte buffer; the published size is that of the flows that are on and their packet headers.", "quantifier": "every content of all fields, every number of cycles, every sequence of toggles of existing flows", "why_tests_cant": "The claim ranges over all 2^43 sets of active flows and all contents.", "anchors": ["src/fsw/FCCode/DownlinkProducer.cpp:init_flows,execute,compute_downlink_size,toggle_flow", "src/flow_data.cpp", "src/common/SerializerTypes.inl"]}
{"id": "C167", "title": "The ground reads the telemetry of a satellite whose flows are as at boot", "statement": "Given the packets of a frame in order, the ground parser reports every field of every active flow with the value it had on the satellite.", "quantifier": "every content of all fields, every flight that leaves the flows as at boot", "why_tests_cant": "The claim ranges over all contents; undefined behaviour of the parser on whole packets.", "anchors": ["src/common/DownlinkParser.cpp:process_downlink_packet", "src/fsw/FCCode/DownlinkProducer.cpp:execute", "src/flow_data.cpp"]}
{"id": "C168", "title": "Switching on another telemetry flow leaves what the other flows report as it was", "statement": "After a toggle command switched on one more flow, the values reported of the other flows are still those on the satellite.", "quantifier": "every flow that is off at boot, every content of all fields", "why_tests_cant": "The claim ranges over all contents.", "anchors": ["src/fsw/FCCode/DownlinkProducer.cpp:execute,toggle_flow", "src/common/DownlinkParser.cpp:process_downlink_packet", "src/flow_data.cpp"]}
{"id": "C169", "title": "The ground may uplink any value of the fields that move and toggle telemetry flows", "statement": "Any pair of flows can be named in the commands to move a flow, any value the field can carry can be named in the command to toggle one; the satellite goes on and sends the flows in the new order.", "quantifier": "every pair of flows of the flight table, every value the six-bit command fields can carry, every content", "why_tests_cant": "The claim ranges over memory safety for all pairs.", "anchors": ["src/fsw/FCCode/DownlinkProducer.cpp:shift_flow_priorities,toggle_flow,execute", "src/flow_data.cpp"]}
{"id": "C170", "title": "Every field a task looks up at start-up exists, under that name and with that type", "statement": "When the flight program starts, each of the 180 lookups of a field or fault by name finds an object of that name and type that a task constructed earlier has registered; no two fields share a name; the build without assertions ends with the same registry and pointers as the build with them.", "quantifier": "every lookup of the start-up sequence", "why_tests_cant": "The claim ranges over the flight build casts without checking, so a wrong name or type is silent there; a test starts the program once on the desktop.", "anchors": ["src/fsw/FCCode/MainControlLoop.cpp:MainControlLoop", "src/fsw/FCCode/ControlTask.hpp:find_writable_field,find_readable_field,find_internal_field,find_fault", "src/common/StateFieldRegistry.cpp", "src/common/casts.hpp"]}
{"id": "C171", "title": "An order from the ground within the declared range is what the satellite then holds", "statement": "A file of orders that name commandable fields and give values of the declared kind and range is turned into a message; when the satellite reads it, every field named holds the value ordered and every other field is unchanged. A file that names an unknown field is refused.", "quantifier": "every file of orders to the fields of the flight program, every earlier contents of the fields, everything that may follow the message in the buffer", "why_tests_cant": "The claim ranges over 2^1719 contents and all subsets of 196 fields.", "anchors": ["src/gsw/parsers/src/UplinkProducer.cpp:create_from_json,add_field_to_bitstream,try_add_field,add_entry", "src/fsw/FCCode/UplinkConsumer.cpp:execute", "src/common/UplinkCommon.cpp", "src/fsw/FCCode/MainControlLoop.cpp"]}
{"id": "C172", "title": "Every value in a field's declared range can be ordered from the ground", "statement": "The ground accepts every value in the declared range of an integer field, and the satellite then holds that value.", "quantifier": "every integer field, every value in its range", "why_tests_cant": "The claim ranges over all values of all fields.", "anchors": ["src/gsw/parsers/src/UplinkProducer.cpp:try_add_field", "src/common/SerializerTypes.inl", "src/fsw/FCCode/GomspaceController.cpp:GomspaceController", "src/fsw/FCCode/MissionManager.cpp:MissionManager"]}
{"id": "C173", "title": "Numbers outside a field's declared range are refused on the ground", "statement": "A file of orders that gives an integer field a number outside its declared range is refused as a whole.", "quantifier": "every integer field, every integer", "why_tests_cant": "The claim ranges over all integers.", "anchors": ["src/gsw/parsers/src/UplinkProducer.cpp:try_add_field"]}
{"id": "C174", "title": "Every file of orders the ground accepts fits a radio message", "statement": "The message the ground makes of a file of orders has at most the 340 bytes the radio takes.", "quantifier": "every file of orders", "why_tests_cant": "The claim ranges over all subsets of the fields.", "anchors": ["src/gsw/parsers/src/UplinkProducer.cpp:create_sbd_from_json,to_file,get_max_possible_packet_size", "src/fsw/FCCode/Drivers/QLocate.hpp:MAX_MSG_SIZE"]}
{"id": "C175", "title": "A tank that asks for relief is vented, and only that tank", "statement": "When a tank is too hot, or the outer tank over pressure, a functional propulsion system that is waiting or firing turns to the fault and then vents. The tank it vents is one that asks for relief; when both do, the one not vented last. Every valve opened while venting belongs to that tank, and the thruster valves take turns.", "quantifier": "every run of the propulsion controller from boot, every sensor history, every configuration, every number of ventings", "why_tests_cant": "The claim ranges over every interleaving of faults coming and going with earlier ventings.", "anchors": ["src/fsw/FCCode/PropController.cpp:PropState_Venting::can_enter,enter,determine_faulted_tank,has_succeeded,select_valve_index", "src/fsw/FCCode/PropController.hpp:PropState_Venting,ActionCycleOpenClose"]}
{"id": "C176", "title": "Venting ends", "statement": "A venting ends in the cycle in which its tank no longer asks for relief, the system going back to idle, or after the configured number of openings; while it lasts, a valve is open exactly in the configured cycles.", "quantifier": "every venting, every fill, pause and limit setting, every number of cycles", "why_tests_cant": "The claim ranges over all settings and lengths.", "anchors": ["src/fsw/FCCode/PropController.cpp:PropState_Venting::handle_out_of_cycles,has_succeeded,ActionCycleOpenClose::evaluate,CountdownTimer::tick"]}
{"id": "C177", "title": "Each order to the power supply is the documented message and counts as given exactly if acknowledged", "statement": "Switching outputs, choosing the tracker mode, resetting counters or the watchdog, a hard reset and a ping send exactly the message the supply documents, and are reported as done exactly if the supply's reply acknowledges that order without an error.", "quantifier": "every order, every argument, every reply of two bytes (three for a ping) or none", "why_tests_cant": "The claim ranges over 65536 replies per order and silence.", "anchors": ["src/fsw/FCCode/Drivers/Gomspace.cpp:set_output,set_single_output,set_ppt_mode,reset_counters,reset_wdt,hard_reset,ping,_check_for_error"]}
{"id": "C178", "title": "The radio goes on only after the answers its manual documents; after any error it is configured anew", "statement": "While it is configured or a message is stored, the next command is sent only after the documented answer to the last; a radio that answers so is configured in four cycles; any other answer, or a failed write, ends the conversation, after which the radio is silent and starts over with the first step of the configuration.", "quantifier": "every state of the radio, every answer, every count of cycles", "why_tests_cant": "The claim ranges over all byte strings the radio may send, at every step.", "anchors": ["src/fsw/FCCode/QuakeManager.cpp:dispatch_config,dispatch_write", "src/fsw/FCCode/QuakeControlTask.cpp", "src/fsw/FCCode/Drivers/QLocate.cpp:consume,config_1,config_2,config_3,sbdwb"]}
{"id": "C179", "title": "An error of the bus since it was last asked for is reported", "statement": "After the errors of a device were asked for, or the device was reset, the next time they are asked for the answer is yes exactly if some transfer of the device failed in between; later successes do not hide an earlier failure.", "quantifier": "every sequence of transfers, every behaviour of the bus and of the device", "why_tests_cant": "The claim ranges over all sequences.", "anchors": ["src/fsw/FCCode/Devices/I2CDevice.inl:i2c_pop_errors,i2c_peek_errors", "src/fsw/FCCode/Devices/I2CDevice.hpp"]}
{"id": "C180", "title": "A message the debug console cannot act on is answered with the reason and changes nothing", "statement": "A message with no mode, a mode that is no character code, an unknown mode, an unknown field, no value to write or a value the field refuses is answered by one error that names the field, the mode and the reason; no field and no uplink buffer changes.", "quantifier": "every message the library can parse, every set of fields, every platform", "why_tests_cant": "The claim ranges over all messages and field contents.", "anchors": ["src/common/debug_console.cpp:process_commands,_print_error_state_field"]}
{"id": "C181", "title": "Under manual control each propulsion valve is open exactly if its setting is positive", "statement": "After each control cycle under manual control, and until the next, each of the four thruster valves and two valves between the tanks is open exactly if the ground's setting for it is positive, and no firing is counted.", "quantifier": "every sequence of settings, every number of cycles and of interrupts between them", "why_tests_cant": "The claim ranges over all sequences of settings against the interrupt.", "anchors": ["src/fsw/FCCode/PropController.cpp:PropState_Manual::evaluate,manual_eval", "src/fsw/FCCode/Drivers/PropulsionSystem.cpp:open_valve,close_valve,thrust_valve_loop"]}
{"id": "C182", "title": "An order from the ground is seen again in the telemetry", "statement": "A legal order that the ground does not refuse is taken in by the satellite; from then on, as long as the ordered integer or boolean field holds what it was given, each frame of telemetry is read by the ground, in every flow that is on and names the field, as the value ordered (fields with coarse steps: as the multiple of the step they keep).", "quantifier": "every file of legal orders, every state of the satellite's fields, every history of flows switched on and off", "why_tests_cant": "The claim ranges over orders, field contents and sets of flows together.", "anchors": ["src/gsw/parsers/src/UplinkProducer.cpp", "src/fsw/FCCode/UplinkConsumer.cpp", "src/fsw/FCCode/DownlinkProducer.cpp", "src/gsw/parsers/src/DownlinkParser.cpp", "src/flow_data.cpp"]}
{"id": "C183", "title": "The boot counter counts the boots", "statement": "Starting from an erased memory, the boot counter in the n-th boot is n.", "quantifier": "every number of boots, every length of each, every moment of each power cut", "why_tests_cant": "The claim ranges over all sequences of boots and cuts.", "anchors": ["src/fsw/FCCode/EEPROMControllerTeensy.cpp:init,execute,save_data,read_EEPROM", "src/fsw/FCCode/MissionManager.cpp:init", "src/fsw/FCCode/MainControlLoop.cpp"]}
{"id": "C184", "title": "A satellite ordered to end its mission never starts again", "statement": "Once the ground has set the kill switch, after the next reboot the satellite stays silent for ever: the control cycle never gets past the mission manager.", "quantifier": "every boot, every moment of the power cut, every input afterwards", "why_tests_cant": "The claim ranges over an endless loop cannot be tested, and the order has to survive a reboot at any moment.", "anchors": ["src/fsw/FCCode/MissionManager.cpp:dispatch_startup,execute", "src/fsw/FCCode/EEPROMControllerTeensy.cpp:init,execute", "src/fsw/FCCode/MainControlLoop.cpp"]}
{"id": "C185", "title": "Power cuts do not shorten the deployment wait", "statement": "From an erased memory, however often and whenever the power is cut, the satellite leaves startup only after it has waited the full deployment time in all its boots together.", "quantifier": "every number of boots, every length of each, every moment of each power cut, every input", "why_tests_cant": "The claim ranges over all sequences of boots and cuts over thousands of cycles.", "anchors": ["src/fsw/FCCode/MissionManager.cpp:MissionManager,dispatch_startup", "src/fsw/FCCode/EEPROMControllerTeensy.cpp:init,execute,save_data,read_EEPROM", "src/fsw/FCCode/MainControlLoop.cpp"]}
{"id": "C186", "title": "A satellite that has reported itself deployed does so for ever", "statement": "The deployed flag is set exactly when the satellite goes from startup to detumbling; once a control cycle has ended with it set, it is set after every later cycle, whatever happens, through every reboot.", "quantifier": "every run of the mission manager, every input and command, every number of boots, every moment of each power cut", "why_tests_cant": "The claim ranges over all runs and all moments of power loss.", "anchors": ["src/fsw/FCCode/MissionManager.cpp:dispatch_startup,MissionManager", "src/fsw/FCCode/EEPROMControllerTeensy.cpp:init,execute", "src/fsw/FCCode/MainControlLoop.cpp"]}
{"id": "C187", "title": "After every reboot the satellite can be reached again", "statement": "After a reboot the radio is switched on as soon as the deployment wait is over.", "quantifier": "every saved mission state, every history of faults and inputs after the reboot, every number of cycles", "why_tests_cant": "The claim ranges over that something never happens, in runs of every length.", "anchors": ["src/fsw/FCCode/MissionManager.cpp:dispatch_startup,execute", "src/fsw/FCCode/EEPROMControllerTeensy.cpp:init,read_EEPROM", "src/fsw/FCCode/QuakeFaultHandler.cpp:execute", "src/fsw/FCCode/QuakeManager.cpp:QuakeManager,dispatch_disabled"]}
