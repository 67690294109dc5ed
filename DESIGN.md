# Formal model of the PAN flight software: design

Source: `/repo` (pathfinder-for-autonomous-navigation/FlightSoftware), read as text, never built or run.
The properties are in `properties.jsonl`; claim status per property is in `MANIFEST.json`.

## Layout

For each area `X` there are up to four files under `rocq/theories`:

* `XModel.v`  executable Gallina transcription of the C++ functions, each definition citing file and lines;
* `XSpec.v`   the specification the properties are phrased in; it does not mention the model's helpers;
* `XProofs.v` lemmas;
* `PropertiesX.v` only theorem statements closed by `exact`, `Print Assumptions`, and concrete instances
  (`Example`) showing that the hypotheses can be met.

Undefined behaviour (out-of-bounds access, division by zero, out-of-range float to integer conversion) is a distinct
outcome (`None`/`UB`) wherever the property is about it. Unsigned arithmetic wraps explicitly (`mod 2^32`, `mod 2^64`).

A property that the code violates is kept at full strength in `properties.jsonl`; the development then contains a
theorem with suffix `_refuted` giving a concrete witness, and theorems with suffix `_partial` proving what does hold,
with the exact guard.

## Plan per property

* **C01** Integer telemetry fields survive encode/decode: `IntegerSerializer` over Z with explicit type bounds; proof by arithmetic on ceil-division and the bit-list/integer isomorphism.
* **C02** Any received bit pattern decodes inside the declared range: Same model; expected false (decode is not clamped): exact characterisation of the decoded range plus a refutation.
* **C03** GPS time arithmetic is exact and ordered: `gps_time_t` over Z with mod 2^16/2^32/2^64 wraps; arithmetic proofs; expected refutation for unset operands.
* **C04** GPS time telemetry round trip: `Serializer<gps_time_t>` on top of the integer serializer model.
* **C05** Bit stream reads return what was written and edits are local: `bitstream` as (bytes, byte index, bit index); refinement to a list of bits plus a position.
* **C06** A rejected uplink changes nothing: Uplink consumer on registries as lists of bit fields; induction over the packet.
* **C07** Ground-built uplinks are accepted and take effect: Producer modelled as the list of bits it emits; induction over the assignments.
* **C08** Uplink validation accepts exactly well-formed packets and always terminates in bounds: Specification grammar of packets as an inductive predicate; validation proved equivalent to it.
* **C09** Downlink frame carries every active flow in order: Frame buffer as list of bytes with checked writes; invariant over bits emitted.
* **C10** Multi-packet downlink frames carry a continuation marker at each packet boundary: Same model; expected refutation (the marker is written to the wrong byte) with exact effect stated.
* **C11** Building a downlink frame stays inside the frame buffer: Checked writes: characterisation of when the builder stays in bounds; expected refutation.
* **C12** Ground reading of a downlink recovers the telemetry: `DownlinkParser` composed with the producer model for single packet frames.
* **C13** Flow priority commands only permute the flow table: Flow table as a list; adjacent swaps; `Permutation`.
* **C14** Event storage keeps the most recent events: Ring buffer refined to the list of all signals.
* **C15** A fault trips exactly after its persistence: `Fault` state machine against a specification on the history of operations.
* **C16** Field registry names are unique and lookups are stable: Registry as lists; invariant by induction on registrations.
* **C17** Persistent fields survive a power cycle at any cycle: EEPROM as array of cells; crash point = arbitrary prefix of the run.
* **C18** Fault handling recommends the most severe response: `MainFaultHandler` over arbitrary constituent handlers.
* **C19** Loss of communication escalates on schedule: `QuakeFaultHandler` with 32-bit counters; trace induction.
* **C20** A safehold response disarms the spacecraft in the same cycle: `MissionManager::execute` as a total step function on a record of all fields read or written.
* **C21** Safehold and manual are left only by ground command: Invariant over input histories of the same step function.
* **C22** Mission state changes follow the concept of operations: Step relation included in an explicit edge list.
* **C23** Deployment wait is respected: Invariant on the deployment timer.
* **C24** Docking gives up after the ground-set time and not before: Same step function with the static entry variable; expected refutation for stale entry count.
* **C25** A day in safehold reboots the spacecraft: Composition of mission manager and fault response; expected refutation.
* **C26** Radio manager never stalls: `QuakeManager` step function; ranking function on cycles without communication.
* **C27** Every byte of a telemetry snapshot is transmitted: Slice arithmetic of the snapshot loop; expected refutation for sizes not divisible by 70.
* **C28** Thruster valves open for the scheduled time and one at a time: `thrust_valve_loop` on an arbitrary schedule; induction over ticks.
* **C29** No thruster valve is open while propulsion is not firing: Driver operations and ticks as a labelled transition system; invariant.
* **C30** Propulsion fires only a valid schedule at its programmed time: `PropController` state machine; invariants over input histories.
* **C31** Every schedule judged valid can be loaded: Comparison of the two validity checks; expected refutation at exactly 1000 ms.
* **C32** Pressurization attempts are bounded: Ranking function on the pressurizing counters.
* **C33** A commanded power cycle turns an output off and on again exactly once: Controller, stale read-back and supply; phase invariant over runs of any length, counting multiples of the period in the wrapping counter. Carried over to the byte-level model by the refinement of `EpsRefine` (`..._bytes`).
* **C34** DC-DC commands take effect: `DCDCController` step function; case analysis over all booleans.
* **C35** The docking flag tells where the docking motor is: Controller plus motor position; expected refutation when the command is withdrawn mid-turn.
* **C36** Attitude device reset and disable commands address only the named devices: Bit tables of 32 devices through controller, bus and attitude computer; expected refutation for reset with disable.
* **C37** Attitude computer register writes are isolated: `on_i2c_recieve` on byte lists with explicit fall-through.
* **C38** Torque rods obey the configured moment limit: `mtr::actuate` clamp over rationals; expected refutation for the upper limit.
* **C39** Disabling the reaction wheels stops them: Flight computer driver, register file and attitude loop composed; expected refutation.
* **C40** Thrust allocation never asks for negative impulse and realises the command: `schedule_valves` over exact rationals; linear arithmetic per case of the minimum.
* **C41** Task start times survive microsecond counter roll-over: `execute_on_time` with 32-bit modular arithmetic against real times.
* **C42** Radio message checksum detects every single-byte corruption: `QLocate::checksum` modulo 2^16.
* **C43** Every integer range the type allows can be declared: Same model as C01; expected false: witnesses by computation.
* **C44** Faults keep counting for ever: Same model as C15; expected false: witnesses.
* **C45** Persistent fields of every saveable type survive a power cycle: Same model as C17; expected false.
* **C46** A persistent field never saved keeps its default: Same model as C17; expected false.
* **C47** A reboot out of safehold waits a full day: Same model as C25; expected false for ground-commanded safehold.
* **C48** The radio is switched on again after every fault power cycle: Same model as C18/C19: the main handler stops at the first safehold answer, so the second half of a power cycle can be skipped.
* **C49** Every entry into safehold disarms the spacecraft: Same model as C20; expected false for ground commands and undefined states.
* **C50** The GPS fault response is exact: `PiksiFaultHandler::execute` as a function of the fields; equivalence with a predicate over the fields.
* **C51** The ground-set venting limit is kept: `PropFaultHandler::execute`; induction over runs; expected false for later ground changes.
* **C52** Thruster valves are shut outside firing and venting: Invariant on the valves per controller state, preserved by each `evaluate` and `enter`, over `prun`; refuted when the ground leaves manual control.
* **C53** A firing scheduled early enough is not abandoned for lack of time: Closed form of a pressurization attempt (`pressing`); arithmetic on the countdown.
* **C54** A firing ends, and ends with the thrusters shut: Closed form of the valve loop composed with controller cycles (`firing_for`).
* **C55** A firing that ends by itself gave every valve its scheduled time: Counting open intervals; refuted when the controller runs in the last interval of a schedule divisible by 3.
* **C56** The radio sends nothing but telemetry: The memory after the snapshot is an input; the copy is compared with the snapshot; refuted for every size.
* **C57** The time of last contact is the time of an acknowledged exchange: Case analysis of one execution of the radio manager.
* **C58** The uplink handed over is the message received: Case analysis of one execution plus decoding of the frame; refuted when the exchange report and the frame disagree.
* **C59** The battery heater follows its command: One execution, case analysis. Carried over to the byte-level model by the refinement of `EpsRefine` (`..._bytes`).
* **C60** A boot leaves heater and panel voltages as they are: One execution; refuted by a failed query. Carried over to the byte-level model by the refinement of `EpsRefine` (`..._bytes`).
* **C61** The power-point tracker follows its command: Two executions with arbitrary other writes in between. Carried over to the byte-level model by the refinement of `EpsRefine` (`..._bytes`).
* **C62** Panel voltages are set to the commanded values: Byte order on the wire as sent; refuted for all values with different bytes. Carried over to the byte-level model by the refinement of `EpsRefine` (`..._bytes`).
* **C63** The GPS receiver is off until deployment is over and powered afterwards: Power controller runs plus mission manager histories; refuted for boots restored into docking states. Carried over to the byte-level model by the refinement of `EpsRefine` (`..._bytes`).
* **C64** Telemetry shows whether a fault is in force: Abstraction of fault histories also for the field's own value; refuted between an unsignal and the next reading and for overridden faults.
* **C65** Disabling the torque rods turns them off: Composition of driver, interrupt handler and loop; invariant after the command was copied.
* **C66** A zero moment command turns the torque rods off: As C65, with the rounding of zero in the 16 bit scale computed exactly.
* **C67** Attitude commands arrive as given, to one step of their scale: Rational fixed point conversions; driver messages through the interrupt handler.
* **C68** Wheels turn in the commanded direction: `rwa::actuate` case analysis; refuted for speed commands and for a failed potentiometer.
* **C69** A passive attitude computer drives no actuator: Invariant over all later runs; refuted from a reachable state.
* **C70** Wheel readings are refreshed in every pass of the attitude loop: Loop progress; refuted from a reachable state with the wheels disabled.
* **C71** The gyroscope heater is on exactly when the gyroscope is too cold: `imu::update_sensors` case analysis; refuted for missing gyroscope readings.
* **C72** The sun vector reported is one that was computed: Invariant over all runs from boot, plus decoding.
* **C73** A silent attitude computer is noticed: The monitor on an answer-less bus; refuted, since leftovers of the buffer are decoded and published.
* **C74** No half-received actuator command is carried out: Invariant relating the local copies to one earlier register state.
* **C75** A device out of use is idle: Invariant over all runs from boot.
* **C76** The device table read by the flight computer is at most one pass old: Loop progress with a step count.
* **C77** Attitude readings are flagged exactly when they are out of range: The monitor's comparisons; refuted for ramp and magnetometer flags, whose bounds are placeholders in the code.
* **C78** Every reading of the attitude computer can be transmitted: Ranges of filtered readings as an invariant; refuted for the ramp and for a saturated sun sensor.
* **C79** Converter readings are two's complement: Exhaustive arithmetic over both bytes by `lia`.
* **C80** No command of the flight computer makes the attitude computer compute outside its number ranges: Out-of-range conversion is a distinct outcome (`None`) of a run; refuted by one interleaving.
* **C81** Each automatic attitude state commands the actuators in its own way: Commander composed with the box controller's calls.
* **C82** A magnetometer calibration that is requested is performed: Loop progress; refuted for a request arriving during publication.
* **C83** An actuator command is carried out within a little more than one pass: Driver, interrupt handler and loop composed.
* **C84** No control task begins before its slot: Induction over the task list with the clock as a list of real times, reduced modulo 2^32 at each reading.
* **C85** The average wait in telemetry is the mean of the waits: Induction over the cycles; refuted, since the cycle count is already incremented when it is used as the number of earlier waits.
* **C86** Thrust allocation spends least propellant: Linear arithmetic against an arbitrary competing allocation; refuted by a command one thruster could give alone.
* **C87** A valve is opened for the longest whole millisecond count that does not exceed the wanted impulse: Truncation towards zero of a rational.
* **C88** Every impulse the orbit controller commands can be fired: Linear bounds on the impulses; refuted for 0.02 Ns along one axis, and composed with the propulsion controller over runs of any length.
* **C89** Firings are planned only with valid navigation and only as follower: Case analysis of one execution; induction over the node list.
* **C90** The smoothed relative state lies between the measurements since the last outage: Induction over runs with the list of measurements since the last outage as ghost state.
* **C91** The countdown to a firing ends when the satellite is at a firing node: The angle as the code computes it is the absolute value of the true one; refuted on the second half of the orbit.
* **C92** The number of near-field firing nodes can be commanded: Characterisation of the node set; refuted for spread, for zero and for the gain, which is a function-local static.
* **C93** No firing after the satellite has left the follower states: Orbit and propulsion controllers composed; invariant over runs; refuted for a firing planned before leaving.
* **C94** A firing that starts uses the valve times of the latest impulse: Composition as for C93; refuted when the impulse grew too large after pressurization.
* **C95** A planned firing leaves propulsion the time it needs to pressurize: Distance of the near-field nodes against the parameters the code starts with; refuted everywhere on the first half of the orbit.
* **C96** A value of a floating point field survives telemetry to within one step: IEEE 754 model (Flocq) of FloatDoubleSerializer for any precision; error analysis of subtraction, division and truncation, then of multiplication and addition.
* **C97** Every received pattern decodes to a value within the field's limits: Monotonicity of decoding and the bound on the top code; flight fields by computing the top code; refuted for a float field -40..17 with 3 bits.
* **C98** Telemetry of floating point fields preserves order: Monotonicity of rounding through encoding and decoding.
* **C99** A commanded floating point value is reported back as the same code: The decoded value is within 2.1 u (|min|+|max|) of its grid point, hence its code is that of the grid point or one lower; refuted for the filter constants.
* **C100** Every value a floating point field can hold can be encoded: From C96 for all values but NaN; NaN proved undefined for every field.
* **C101** The limits of a floating point field are transmitted exactly: Lower limit: all operations exact; upper limit refuted for five flight fields by computation.
* **C102** A floating point field may be declared with any width and limits: Narrow fields from C96; refuted for 50-bit floats (stale bits), 64 bits, no bits and equal limits.
* **C103** A vector survives telemetry to within the declared precision: Real-valued model of VectorSerializer; distance in spherical coordinates bounded by radial and angular steps; twice the precision for all fields, the precision itself for position fields; refuted for every field with lower limit zero.
* **C104** Telemetry never reverses a component of a vector: Componentwise from C103; refuted for x = +0: the sign bit says negative and phi is a right angle, so y is reversed, in every field.
* **C105** Every vector a field can hold can be encoded: 0/0 in the quotient and in normalization is a distinct outcome; refuted for the third axis and the zero vector.
* **C106** Every received pattern decodes to a vector whose length is within the limits: The decoded length is the decoded radius.
* **C107** An attitude quaternion survives telemetry as the same rotation: The largest component is at least 1/2, the others are within a step; error of the recovered component by the difference of squares.
* **C108** Every received pattern decodes to an attitude: Unit norm whenever the root is defined; refuted by the pattern of ones.
* **C109** Every quaternion a field can hold can be encoded: From C107; refuted by the zero quaternion.
* **C110** A filter constant governs the reading it is named for: Each update is linear in its constant; refuted for the ramp, whose constant is never used.
* **C111** A lost sensor leaves its last reading standing: Inertial sensors and sun sensors by cases; refuted for the wheels, whose retained speed is converted as if it were a voltage: growth by a factor of at least 600 per pass, by induction.
* **C112** Printing a field stays inside its text buffer: Texts modelled character by character; length of decimal representations by induction, rounding to millionths exactly. Refuted for large floats, vectors and GPS times.
* **C113** A printed value can be typed back in: Scanner modelled after the C standard; digits and value are inverse. Refuted for unsigned integers above 2^31 - 1 and for the set flag of GPS times.
* **C114** A value typed in is within the limits of its field or rejected: Type range proved; refuted: limits are not consulted and numbers wrap.
* **C115** A vector typed in has the right number of components or is rejected: Tokens of a list of numbers; refuted for more numbers than components.
* **C116** Messages of the GPS receiver are recognised however the bytes are grouped: Parser of libsbp modelled state by state, reads of any size; shown equal to a byte-at-a-time parser, then to an inductive specification of the messages in a stream. The table-driven checksum is shown to be the polynomial remainder.
* **C117** A damaged GPS message is never used: Linearity of the remainder and a check of all 16-bit windows; refuted: the checksum is sent low byte first, so the last byte of the payload and the byte after it can change together (0x89, 0xA1) in every message.
* **C118** Reading the GPS receiver ends and stays inside its buffers: Invariant of port, interrupt counters and parser over arbitrary interleavings; overruns and non-termination are distinct outcomes of the model.
* **C119** A GPS message shorter than its format is not used: Refuted: callbacks copy the size of the structure whatever the message's length, so old bytes of the parser's buffer are published; holds for full messages.
* **C120** Published GPS time, position, velocity and baseline belong to one instant: From C116: the callbacks leave the last payload of each type; case analysis of the control task.
* **C121** Velocity and baseline are published in metres per second and metres: Refuted: the receiver sends millimetres and the driver passes the number on. Proved: the number published is the number sent.
* **C122** The published GPS delay is the age of the data: Counting interrupts by induction for a burst after silence; refuted for pauses of more than 10 ms within a burst and for bursts less than 10 ms apart.
* **C123** A complete set of GPS navigation messages is used: Converse of C120 for one reading; refuted when the set is spread over two readings, and when an unrelated message is damaged.
* **C124** The time estimate is valid exactly when a GPS reading arrived since the last reset: NavModel.v (`time_step` over whole histories `after`); iff by induction on the history.
* **C125** The time estimate is the last GPS time plus the time passed: NavModel.v with GPSTimeModel.v; induction on the cycles since the reading; SbpModel.v for the bound on the age.
* **C126** An estimate is never valid without the estimates and sensors it is built on: NavModel.v, all four estimators; case analysis of one cycle.
* **C127** A reset command is obeyed at once and what came before it is forgotten: NavModel.v; a relation between two runs kept by every cycle (time, orbit, attitude); the relative estimator keeps a baseline across resets: counterexample by computation.
* **C128** Without RTK readings a relative estimate is given up after 5000 cycles, not before and not much later: NavModel.v; invariant on the count of cycles without RTK; counterexample: the count survives a reset (5000 cycles computed).
* **C129** The relative velocity an estimate starts with is the change of the baseline over the time between the two readings: NavModel.v; what the stored baseline is after an RTK cycle that started nothing; counterexamples by computation.
* **C130** An orbit of the other satellite uplinked for a future time is used when that time comes: NavModel.v with GPSTimeModel.v; invariant on the queue up to its time; counterexample: clock set forward by two cycles.
* **C131** Absolute and relative state published for the other satellite belong together: NavModel.v; case analysis of one cycle.
* **C132** The magnetic field published is that of a working magnetometer, of the preferred one if it works: NavModel.v (`att_step`); case analysis, the previous rods' command from the history.
* **C133** Every cycle without attitude estimate counts for the attitude fault: NavModel.v (`att_step`), the argument of the fault's evaluation is recorded.
* **C134** The attitude controller never commands anything that is not a number: NavModel.v (`ctl_step`), invariant; the control laws are arbitrary functions.
* **C135** Without an attitude estimate the wheels are commanded no torque: NavModel.v (`ctl_step`); case analysis over the modes; counterexample in manual pointing.
* **C136** In manual pointing the satellite points as ground told it to: NavModel.v (`ctl_step`); invariant: without an autonomous pointing mode the body vectors stay nan; what happens after one.
* **C137** In docking mode the docking face is turned to the other satellite, and nothing is done if its place is not known: NavModel.v (`ctl_step`, `objectives`); case analysis.
* **C138** A device of the attitude computer that cannot be reached three times running is taken out of use, and no other: DevModel.v: drivers on an arbitrary bus (a state machine answering library calls). Induction over exchanges with the number of trailing failures as invariant. False for sensors whose status can be read but whose data cannot (the status exchange clears the count): refuted for any number of passes.
* **C139** A reset of a device ends after at most three attempts and tells whether one succeeded: DevModel.v (`reset`); the three attempts compared with the calls made on the bus alone.
* **C140** A sensor reading that is used was received completely and is what the device sent: DevModel.v; the calls of the exchange on the bus alone (`sends`), and decoding of two's complement for all values.
* **C141** After a calibration the second magnetometer goes on measuring: DevModel.v with a model of the chip (`chip_bus`). Symbolic execution of the 48 calls of an undisturbed calibration, induction over later passes; two refutations where one call fails.
* **C142** Readings of the second magnetometer have the sign of the field once it was calibrated and reset: as C141; refuted by a run with one failed call and a later successful reset.
* **C143** Every call of a device driver returns: DevModel.v: loops with fuel; refuted for all fuel on a bus without errors whose device is never ready.
* **C144** A low battery brings the satellite to safehold: ChainModel.v: the watching tasks, faults, handlers and mission manager composed over whole flights. Invariant: an uncommanded fault's count is the number of cycles its condition has been present (defined on the history of observations alone). Two refutations, both for unboundedly many cycles: docking is in no handler's list, and unreadable housekeeping data leave the last voltage in force.
* **C145** The satellite goes to safehold by itself when, and only when, a condition has lasted longer than its persistence: ChainModel.v, same invariant; both directions.
* **C146** At the end of the deployment wait the satellite holds if its attitude hardware has been failing, and detumbles otherwise: ChainModel.v, same invariant through the reads of the handlers that precede the check.
* **C147** A table of telemetry flows is accepted only if ground can tell its flows apart: DownlinkModel.v (init_flows). Characterisation of accepted tables by induction over the table; refuted: two flows with one id are accepted (the set of ids is never filled), ground then misreads or stops.
* **C148** Messages typed on one console line are each carried out once, in order: ConsoleModel.v: line buffer, message starts, in-place parsing by an arbitrary library, message loop with its shared index. Induction over the messages of a line; refuted for messages after an uplink, a sixth message, text in a string.
* **C149** An uplink entered at the console is handed on byte for byte: ConsoleModel.v (uplink_bytes, copy_token, strtol16). Induction over the bytes; refuted for packets of one or two bytes (token not cleared) and for a length larger than the text.
* **C150** A console message that cannot be read does nothing: ConsoleModel.v (parse_all). Refuted: msg_ok is uninitialised; partial under zeros on the stack.
* **C151** The console always returns to the flight software: ConsoleModel.v (messages). Measure argument for any parse result; refuted by a line carried out for ever (induction over the number of turns).
* **C152** Single stepping runs one control cycle per start command: ConsoleModel.v (debug_task, cycles) over whole sequences of lines; induction over lines and cycles.
* **C153** A device of the flight computer that fails three times in a row is declared non-functional, and no other: Model of the device class over any bus (`EpsModel`: fdev, fd_op). The counter is changed by setup, reset and disable only; hence refuted for exchanges on a dead bus, any number of them, and by three successful setups. Partial: exact count of failed pings in a setup.
* **C154** A device that was disabled stays disabled until it is reset: Invariant: the counter stays at least 3, through any list of operations without a reset.
* **C155** Data of a device count as valid exactly if the last communication with it succeeded: As C153: no exchange changes the answer. Partial: after a setup valid exactly if the first ping was answered.
* **C156** The timeout of a device is what was asked for, in milliseconds: Arithmetic of the conversions; refuted by the constructors' values and by a wrapped product.
* **C157** A failed reading of the power supply's housekeeping is noticed and leaves the old data: Controller cycle down to the bytes on the bus against a scripted supply: any reply, any stack contents; the buffer after a short reply is part reply, part stack.
* **C158** The telemetered values of the power supply are those it sent: Symbolic evaluation of all byte swaps on the image of arbitrary field values; boot counter (four bytes swapped as two) refuted.
* **C159** A partial reading of the power supply's data agrees with a full one: Symbolic evaluation: part image copied over the swapped struct and swapped again equals the full image of the merged values.
* **C160** An output of the power supply is switched as asked, after the delay asked for: Message bytes computed for all delays; refuted with a delay of 10 s.
* **C161** The power supply's configuration can be read: The copy goes to the place of a 4-byte pointer: modelled as undefined behaviour, reached by every good reply.
* **C162** A configuration written to the power supply arrives as given, and success is reported exactly if it was acknowledged: Symbolic evaluation of the swaps on the memory image of arbitrary field values.
* **C163** The default configuration of the power supply can be restored: All messages sent are the committing one.
* **C164** Switching the heater reports success only if the supply reports the heater switched: The check of the reported state is guarded by `1 == (1 | 2)`.
* **C165** Each reset command to the power supply is sent exactly once: All messages of a cycle split into a part before, the commands, and a part after; the parts contain other ports only.
* **C166** The telemetry table that flies is accepted at boot and its frames always fit the buffer: The flow table and the declarations of its fields are transcribed from the source; widths computed as the serializers' constructors do. Invariant over whole runs: the flow list is the table with the active flags that the commands give; buffer size by computation over all flows on.
* **C167** The ground reads the telemetry of a satellite whose flows are as at boot: The general read-back and damage theorems of C10/C12 instantiated: the frame's slots are computed, the two damaged bits located in the table.
* **C168** Switching on another telemetry flow leaves what the other flows report as it was: As C167 with three packets; the damaged bit followed through the time's serializer.
* **C169** The ground may uplink any value of the fields that move and toggle telemetry flows: All pairs of rows classified by computation; copying of flows of unequal numbers of fields is undefined in the model. Both builds: with assertions, and as flown without.
* **C170** Every field a task looks up at start-up exists, under that name and with that type: The 544 registry calls of all constructors in order (script-transcribed, each cited); a registry with pointers; a heap of typed objects; the checking and the unchecking build. A boolean invariant of the call list checked by computation, then lookups by induction on the prefix.
* **C171** An order from the ground within the declared range is what the satellite then holds: The JSON checks, the entry coding (UplinkModel) and the consumer over the 196 commandable fields of C170. Proved for any table passing a boolean check (by induction on the file, integer round trip of C01), instantiated by computation.
* **C172** Every value in a field's declared range can be ordered from the ground: Same model; the five fields declared with a width of their own characterised exactly (limit and step), the rest exact.
* **C173** Numbers outside a field's declared range are refused on the ground: Same model, static_cast of the JSON library explicit; refuted by wrap-around, proved for numbers the C++ type holds.
* **C174** Every file of orders the ground accepts fits a radio message: Exact size of the message; refuted by a file of 191 orders, proved for at most 17 orders.
* **C175** A tank that asks for relief is vented, and only that tank: Runs of the propulsion controller (PropSpec.prun); spec VentSpec (asks, vented, thrusters_vented); invariants on the chosen tank and on the saved valve number.
* **C176** Venting ends: Inductive venting episodes under fixed settings; closed form of the schedule by induction over the evaluations.
* **C177** Each order to the power supply is the documented message and counts as given exactly if acknowledged: Each driver function run on a scripted bus: bytes sent and result in terms of the reply; refuted for silence (uninitialised reply).
* **C178** The radio goes on only after the answers its manual documents; after any error it is configured anew: Case analysis of each step of QuakeManager/QLocate over arbitrary answers, composed for the four-cycle run; invariant of falling back.
* **C179** An error of the bus since it was last asked for is reported: Induction over sequences of driver operations on an arbitrary bus.
* **C180** A message the debug console cannot act on is answered with the reason and changes nothing: Case analysis of the message table over an arbitrary parser; refuted for a missing field (ignored) and a field that is not a string (null pointer).
* **C181** Under manual control each propulsion valve is open exactly if its setting is positive: Induction over runs under manual control; refuted for manual control ordered during a firing, whose interrupt goes on.
* **C182** An order from the ground is seen again in the telemetry: Composition: orders (C172) set the field, its serializer writes the value (C01), the frame is read back (C168); the value read is the value kept.
* **C183** The boot counter counts the boots: Induction over boots on the image of the EEPROM after each (C17's crash and read specifications on the flight program's own table); refuted with short boots by computation.
* **C184** A satellite ordered to end its mission never starts again: C17's specifications for the kill switch and the mission state, composed with the mission manager's first cycle; the endless loop is the outcome None of the model. Refuted for docked and for recent orders by computation.
* **C185** Power cuts do not shorten the deployment wait: Induction over boots: the saved count times a hundred is at most the cycles begun; within a boot by C23. Refuted for a cut in the first save.
* **C186** A satellite that has reported itself deployed does so for ever: The mission manager never clears the flag (case analysis over its dispatch), the EEPROM keeps it (C17's specifications); induction over cycles and boots.
* **C187** After every reboot the satellite can be reached again: Startup: C23 and the last cycle of the wait. Refutation: an invariant (radio off, its fault handler unfaulted) kept by every fault handler and every dispatch but startup; induction over cycles, composed with the EEPROM.

## Trusted base

* The Coq 8.16.1 kernel, including its conversion checks by `vm_compute` (used for the concrete `Example`s and the
  witnesses of `_refuted` theorems). No kernel check is switched off, there are no axioms of our own, no plugins.
* The Coq standard library. Flocq 4.1.0 is used for the definitions of IEEE 754 arithmetic (`FloatSerModel.v`,
  `FloatSerProofs.v` and the files that use them); its theorems are checked by the same kernel and add no axiom of
  their own.
* What `Print Assumptions` lists under each property theorem. Every `Properties*.v` prints it after each theorem. The
  table below was collected from that output (537 theorems).
* The reading of the C++ sources recorded in the comments of the `*Model.v` files. The C++ is never compiled or run
  here, so nothing but reading ties the model to it.

### Axioms per theorem

* **None** ("Closed under the global context"): the 500 property theorems not named in the following items.
* `ClassicalDedekindReals.sig_forall_dec`, `ClassicalDedekindReals.sig_not_dec`, `Classical_Prop.classic`, `FunctionalExtensionality.functional_extensionality_dep` (axioms of the standard library's real numbers and classical logic) under 27 theorems: `C96_within_a_step`, `C96_flight_fields`, `C97_within_limits_partial`, `C97_flight_float_fields`, `C97_flight_double_fields`, `C97_above_limit_refuted`, `C98_order_preserved`, `C99_reported_back_partial`, `C99_lower_code_refuted`, `C100_defined_partial`, `C100_nan_refuted`, `C101_lower_limit_partial`, `C101_upper_limit_refuted`, `C102_stale_bits_refuted`, `C102_undefined_refuted`, `C102_degenerate_refuted`, `C102_narrow_partial`, `C166_declared_widths`, `C112_position_refuted`, `C103_twice_the_precision_partial`, `C103_position_fields_partial`, `C103_zero_based_fields_refuted`, `C104_signs_kept_partial`, `C104_second_component_reversed_refuted`, `C105_off_axis_partial`, `C105_axis_undefined_refuted`, `C106_length_within_limits`.
* `ClassicalDedekindReals.sig_forall_dec`, `FunctionalExtensionality.functional_extensionality_dep` (axioms of the standard library's real numbers and classical logic) under 5 theorems: `C112_floats_partial`, `C112_vectors_partial`, `C112_large_floats_refuted`, `C112_large_vectors_refuted`, `C113_floats_shown_partial`.
* `ClassicalDedekindReals.sig_forall_dec`, `ClassicalDedekindReals.sig_not_dec`, `FunctionalExtensionality.functional_extensionality_dep` (axioms of the standard library's real numbers and classical logic) under 5 theorems: `C107_same_rotation`, `C108_unit_partial`, `C108_pattern_of_ones_refuted`, `C109_nonzero_partial`, `C109_zero_undefined_refuted`.

## What is modelled

| theory files | code in `/repo` |
|---|---|
| `IntSerModel, FloatSerModel, VecSerModel, PrintModel` | `src/common/SerializerTypes.inl`, `Serializer.hpp`: constructors, `serialize`, `deserialize` (bits and text), `print` of booleans, integers, floats, doubles, vectors, quaternions, GPS times |
| `GPSTimeModel` | `src/common/GPSTime.hpp`: all operators and conversions; `Serializer<gps_time_t>` |
| `BitArrayModel, BitstreamModel` | `src/common/fixed_array.hpp`, `bitstream.{h,cpp}` |
| `FlownModel` | `src/flow_data.cpp`, and the declarations of all fields it names (each cited) with their sizes; the producer and the ground parser (DownlinkModel) run with it |
| `RegistryModel` | `src/common/StateFieldRegistry.{hpp,cpp}` |
| `EventModel, FaultModel` | `src/common/Event.{hpp,cpp}`, `EventStorage.cpp`, `Fault.{hpp,cpp}` |
| `EEPROMModel` | `src/fsw/FCCode/EEPROMControllerCommon.cpp`, `EEPROMControllerTeensy.cpp`, the EEPROM part of `StateFieldTypes.inl` |
| `TimingModel` | `ClockManager.cpp`, `TimedControlTask.hpp`, the order of `MainControlLoop.cpp` |
| `FaultHandlerModel, ChainModel` | `MainFaultHandler`, `SimpleFaultHandler`, `QuakeFaultHandler`, `PiksiFaultHandler`, `PropFaultHandler`; their composition with the owners of the faults and the mission manager over whole flights |
| `MissionModel` | `MissionManager.{hpp,cpp}` |
| `OrbitModel, OrbitJointModel, PropModel` | `OrbitController.{hpp,cpp}`, `PropController.{hpp,cpp}`, `Drivers/PropulsionSystem.cpp`, and the two controllers in one loop |
| `PowerModel` | `GomspaceController.cpp`, `Drivers/Gomspace.cpp`, `DCDCController.cpp`, `Drivers/DCDC.cpp`, `DockingController.cpp`, `Drivers/DockingSystem.cpp` |
| `AdcsModel` | `ADCSBoxController.cpp`, `ADCSBoxMonitor.cpp`, `ADCSCommander.cpp`, `Drivers/ADCS.cpp`, and the attitude computer's `state.cpp`, `state_controller.cpp`, `main.cpp`, `rwa.cpp`, `mtr.cpp`, `ssa.cpp`, `imu.cpp`, `havt.cpp`, `utl/convert.inl` |
| `DevModel` | the attitude computer's `dev/I2CDevice`, `ADS1015`, `AD5254`, `LIS2MDLTR`, `LSM6DSM`, `MMC34160PJ`, `MaxonEC45` drivers |
| `EpsModel` | the flight computer's `Devices/I2CDevice.{hpp,inl,cpp}` over any i2c library; `Drivers/Gomspace.{hpp,cpp}` and `GomspaceController.cpp` (execute) down to the bytes on the bus; `EpsRefine` proves that against a supply that reads the messages as documented (`EpsNanoSpec`) it behaves as `PowerModel` says, lost messages included, and carries the power theorems over |
| `QuakeModel` | `QuakeManager.cpp`, `QuakeControlTask.cpp`, `Drivers/QLocate.{hpp,cpp}` |
| `SbpModel` | `PiksiControlTask.cpp`, `Drivers/Piksi.cpp`, libsbp's `sbp.c` and `edc.c` |
| `NavModel` | `Estimators/*.cpp`, `AttitudeController.cpp` |
| `UplinkModel` | `UplinkCommon.cpp`, `UplinkConsumer.cpp`, `src/gsw/parsers/src/UplinkProducer.cpp` |
| `DownlinkModel` | `DownlinkProducer.{hpp,cpp}`, `src/gsw/parsers/src/DownlinkParser.cpp`; the flown flow table of `src/flow_data.cpp` |
| `BootModel, CommandModel` | the constructors run by `MainControlLoop.cpp` as far as they call the registry (`ControlTask.hpp`, `Fault.cpp`, `casts.hpp`); `UplinkProducer.cpp` from the JSON file on, integers and booleans value by value, the other types by their serialized bits |
| `SavedModel, WaitModel, DeployedModel, RadioBootModel` | the fields saved by the flight program (from BootModel) over EEPROMModel, boot after boot; the mission manager in startup across power cuts |
| `ConsoleModel` | `src/common/debug_console.cpp`, `DebugTask.cpp` |

## Simplifications

Each is repeated in the comment of the definition concerned.

* Assertions. The flight build is compiled with NDEBUG (platformio.ini:96, configs/flight_and_test_envs.ini), so every assert is absent there; the simulation and the ground tools keep them. The outcome Abort of DownlinkModel (unknown ids, oversized flows) and None of EEPROMModel, EventModel and IntSerModel's constructors for a failed assertion are those of the asserting builds. What the flight build does instead is modelled for the downlink (FlownModel: shift_flow_flight, toggle_flow_flight, init_flows_flight); elsewhere the theorems assume or prove that no assertion fails (number of EEPROM fields, storage sizes, min <= max).
* Fixed-width integers are `Z` with an explicit wrap at every operation that can overflow; where no wrap is written the bounds are an invariant or a hypothesis.
* IEEE floats and doubles are modelled exactly (Flocq, round to nearest even) where the property is about their rounding (serializers, unit conversions of the wheels, rods and sensors). Vector and quaternion geometry is over the real numbers, and time/charge/percentage computations whose rounding is irrelevant are over the rationals or integers; the definition's comment says so.
* The `gnc`, `orb` and `lin` libraries are absent from `/repo`. Every function called from them is a field of a record of arbitrary functions (`NavModel`); theorems quantify over that record, so nothing is assumed of them unless a theorem names the hypothesis.
* The i2c library (`i2c_t3`) is an arbitrary state machine answering each call (`DevModel`, `EpsModel`). The JSON library is an arbitrary function from text to a parsed value or failure (`ConsoleModel`). Theorems quantify over both.
* Devices behind a serial port (radio, GPS receiver, propulsion valves) are arbitrary streams of bytes or answers, one per call.
* The time between cycles is an input. A cycle that overruns its slot is modelled in `TimingModel` only.
* The state field registry is a record per component. Fields another component or the ground can write are changed by an environment step between cycles; the statement says which fields the environment may touch.

## Not modelled

* Hardware, the Arduino/Teensy core, interrupts, and the electrical timing of I2C, SPI and serial lines.
* The bodies of the absent libraries (`gnc`, `psim`, `orb`, `lin`, `i2c_t3`, `ArduinoJson`) and the bundled `lib/fsw/json`.
* `TelemetryInfoGenerator.cpp` (a build-time listing of fields), `EEPROMControllerDesktop.cpp` (simulation only), `src/prep`, `src/adcs/scripts`, `src/adcs/characterization`, the `targets/*.cpp` mains apart from their loops, and the Python of `ptest`.
* Logging and `printf` output, apart from the console traffic of `ConsoleModel`.
* C++ object lifetime, static initialisation order, dynamic allocation failure, and stack depth.

## Mutation tests

`seeded/LOG.jsonl` has one line per wrong program tried: a definition of the model was edited like a realistic bug in a
scratch copy and everything rebuilt. "theorems_failed" lists the property theorems whose unchanged proof no longer checks,
followed transitively through the lemmas they use. That is an over-approximation of the theorems that became false:
when a shared lemma's script breaks, all its users are listed. What the test shows is the converse: an edit that no theorem
notices is a claim too weak. Those are the lines with a non-empty "tightened" entry, or whose note says why the edit does not
change any claim. Edits that repair a bug of the code are labelled so; there the `_refuted` theorems must fail.
