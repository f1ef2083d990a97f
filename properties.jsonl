{"id": "C01", "title": "Frame text round trip", "statement": "Formatting any valid CAN frame as text (candump style 'ID#HEX') and parsing that text back yields the same frame: same identifier, same extended/remote/error flags, same payload length and same payload bytes.", "quantifier": "every valid frame (all 29/11-bit ids, all flag combinations, every payload of 0..8 bytes)", "why_tests_cant": "2^30 headers times 2^64 payloads; the tests only check a handful of literals", "anchors": ["socketcan_interface/src/string.cpp: tostring, toframe, toheader, tohex", "socketcan_interface/test/test_string.cpp"]}
{"id": "C02", "title": "Hex payload codec", "statement": "Encoding any byte sequence as hex and decoding the text gives the same bytes; decoding accepts a text exactly when every character is a hex digit (either case) and the number of digits is even (or padding was requested), and a padded odd text decodes as if one leading zero digit had been written.", "quantifier": "every byte sequence and every text", "why_tests_cant": "texts and byte strings are unbounded", "anchors": ["socketcan_interface/src/string.cpp: hex2buffer, buffer2hex, hex2dec, byte2hex, dec2hex"]}
{"id": "C03", "title": "Malformed frame text never yields a usable frame", "statement": "If the text is not 'header#payload' with an even number (at most 16) of hex digits as payload, parsing it never yields a frame that reports itself valid.", "quantifier": "every text", "why_tests_cant": "all strings; fuzzing only samples them", "anchors": ["socketcan_interface/src/string.cpp: toframe", "canopen_chain_node/src/ros_chain.cpp: setup_heartbeat"]}
{"id": "C04", "title": "Mask filter semantics", "statement": "A mask filter passes a frame exactly when the frame's full header word (for error frames the error flag alone) agrees with the reference word on all masked bits, an inverted one exactly when it does not; the text forms 'id:mask', 'id~mask' and 'id' denote the corresponding filters (the bare form ignoring only the extended flag).", "quantifier": "every header, reference word, mask and filter text", "why_tests_cant": "2^32 x 2^32 x 2^32 combinations", "anchors": ["socketcan_interface/include/socketcan_interface/filter.h: FrameMaskFilter", "socketcan_interface/src/string.cpp: tofilter"]}
{"id": "C05", "title": "Range filter semantics", "statement": "A range filter passes exactly the frames whose header word (for error frames the error flag alone) lies in the closed interval, an inverted one exactly the others; the text 'min-max' written with two identifiers in the standard textual form accepts exactly the frames whose identifiers lie between the two.", "quantifier": "every header, every pair of bounds in text form", "why_tests_cant": "2^32 x 2^32 x 2^32 combinations", "anchors": ["socketcan_interface/include/socketcan_interface/filter.h: FrameRangeFilter", "socketcan_interface/src/string.cpp: tofilter"]}
{"id": "C06", "title": "Filtered listener delivers once", "statement": "A filtered listener forwards a frame exactly once if at least one of its filters passes it and never otherwise, in arrival order.", "quantifier": "every filter list and every frame sequence", "why_tests_cant": "filter lists and frame sequences are unbounded", "anchors": ["socketcan_interface/include/socketcan_interface/filter.h: FilteredFrameListener"]}
{"id": "C07", "title": "Buffered reader is a bounded FIFO", "statement": "For any interleaving of arriving frames, reads, enable/disable, resize and flush, the frames handed out are in arrival order, without duplicates, and are exactly the most recent ones that fit: with a limit n>0 never more than n frames are held, and the newest frame is never the one dropped; frames arriving while disabled are never delivered.", "quantifier": "every history of operations and every limit", "why_tests_cant": "histories are unbounded; interleavings are schedule dependent", "anchors": ["socketcan_interface/include/socketcan_interface/reader.h: BufferedReader"]}
{"id": "C08", "title": "Dispatcher delivery", "statement": "Every dispatched message is delivered exactly once to every listener that is registered at that moment (keyed listeners of that key and general listeners), in registration order, keyed before general, never to listeners that were removed, and never to keyed listeners of another key.", "quantifier": "every history of registrations, removals and dispatches", "why_tests_cant": "unbounded histories", "anchors": ["socketcan_interface/include/socketcan_interface/dispatcher.h: SimpleDispatcher, FilteredDispatcher"]}
{"id": "C09", "title": "Filtered dispatch skips only the sender", "statement": "Dispatching on behalf of a listener delivers to all other registered listeners and not to that listener (a node on the dummy bus never receives its own frame through the bus).", "quantifier": "every set of listeners, every sender", "why_tests_cant": "unbounded sets of listeners", "anchors": ["socketcan_interface/include/socketcan_interface/dispatcher.h: dispatch_filtered", "socketcan_interface/include/socketcan_interface/dummy.h: DummyBus, DummyInterface"]}
{"id": "C10", "title": "SocketCAN frame codec", "statement": "Every valid data or remote frame written to the socket arrives, when that kernel frame is read back, with the same identifier, flags, length and payload; what was received earlier never influences the decoded frame.", "quantifier": "every valid frame and every receive history", "why_tests_cant": "the receive history is unbounded, the frame space too large", "anchors": ["socketcan_interface/include/socketcan_interface/socketcan.h: enqueue, readFrame"]}
{"id": "C11", "title": "Error mask configuration", "statement": "The configured error masks always include bus-off as fatal, every fatal condition is also reported, a setting only touches its own condition, and conditions left unset keep the given default.", "quantifier": "every combination of settings and defaults", "why_tests_cant": "2^9 x 3^9 combinations of settings and defaults", "anchors": ["socketcan_interface/include/socketcan_interface/socketcan.h: parse_error_mask, init"]}
{"id": "C12", "title": "Fatal bus errors stop the driver", "statement": "Receiving an error frame never reports the driver ready when any fatal condition bit is set, and a non-fatal error frame leaves the state unchanged; listeners see every state change exactly once and only when the state differs from the last one reported, except that the end of the driver loop always reports the final state once more.", "quantifier": "every state, masks and error frame, every history of state updates", "why_tests_cant": "unbounded histories and 2^29 error identifiers", "anchors": ["socketcan_interface/include/socketcan_interface/socketcan.h: readFrame", "socketcan_interface/include/socketcan_interface/asio_base.h: setDriverState, setInternalError, setNotReady"]}
{"id": "C13", "title": "ROS bridge conversion", "statement": "Converting a CAN frame to a ROS message and back is the identity; a ROS message is transmitted only if it denotes a valid CAN frame, and then exactly the frame it denotes; invalid frames are neither published nor transmitted.", "quantifier": "every frame and every message (any 32-bit id, any dlc)", "why_tests_cant": "message space too large; the tests check single literals", "anchors": ["socketcan_bridge/include/socketcan_bridge/socketcan_to_topic.h: convertSocketCANToMessage", "socketcan_bridge/include/socketcan_bridge/topic_to_socketcan.h: convertMessageToSocketCAN", "socketcan_bridge/src/topic_to_socketcan.cpp: msgCallback", "socketcan_bridge/src/socketcan_to_topic.cpp: frameCallback"]}
{"id": "C14", "title": "Layer status only gets worse and keeps every reason", "statement": "During one call the reported status is the maximum of everything that was reported, and the reason text is exactly the list of the non-empty reasons in the order reported.", "quantifier": "every sequence of reports", "why_tests_cant": "unbounded sequences", "anchors": ["canopen_master/include/canopen_master/layer.h: LayerStatus"]}
{"id": "C15", "title": "Layer lifecycle gating", "statement": "A layer's init code runs only when it is off, recover code only from the error state, halt code only above halt, shutdown code only when it is not off; after init the layer is either ready (status at most warn) or off; after shutdown it is off; after halt it is in error; no other states are observable between calls.", "quantifier": "every sequence of lifecycle calls and every behaviour of the layer's handlers", "why_tests_cant": "unbounded call sequences times arbitrary handler behaviour", "anchors": ["canopen_master/include/canopen_master/layer.h: Layer"]}
{"id": "C16", "title": "Group initialisation is all or nothing", "statement": "Initialising a group or stack of layers either leaves every member initialised (status at most warn) or shuts down every member that had been initialised, and members after the first failing one are never initialised.", "quantifier": "every number of members, every member behaviour, every nesting depth", "why_tests_cant": "unbounded trees of layers", "anchors": ["canopen_master/include/canopen_master/layer.h: LayerGroup, VectorHelper"]}
{"id": "C17", "title": "Stack order", "statement": "Members of a stack are initialised, read, halted, recovered and diagnosed in order of addition and written and shut down in reverse order; plain groups process all of them in order of addition.", "quantifier": "every number of members", "why_tests_cant": "unbounded numbers of members", "anchors": ["canopen_master/include/canopen_master/layer.h: LayerStack, LayerGroup"]}
{"id": "C18", "title": "Errors in cyclic read/write halt the whole group", "statement": "A cyclic read or write of a group processes every member; if the status is above warn afterwards every running layer of the group, at any depth, is halted before the call returns and the group is in the error state; otherwise nobody is halted.", "quantifier": "every group, member behaviours and incoming status", "why_tests_cant": "unbounded groups and behaviours", "anchors": ["canopen_master/include/canopen_master/layer.h: LayerGroup::call_or_fail"]}
{"id": "C19", "title": "Cached reads", "statement": "A cached read performs at most one device read: it returns the stored value without device traffic if a value is held (and the entry is not volatile), otherwise it reads the device; an uncached read of a non-constant entry always reads the device; constant entries are read from the device at most once.", "quantifier": "every access history of an object entry", "why_tests_cant": "unbounded access histories", "anchors": ["canopen_master/include/canopen_master/objdict.h: ObjectStorage::Data::get"]}
{"id": "C20", "title": "Cached writes", "statement": "A cached write sends nothing exactly when the value is already the one held; a plain write always sends; after a successful write the held value is the written one.", "quantifier": "every access history of an object entry", "why_tests_cant": "unbounded access histories", "anchors": ["canopen_master/include/canopen_master/objdict.h: ObjectStorage::Data::set, set_cached"]}
{"id": "C21", "title": "Failed transfers do not poison the cache", "statement": "If a device read or write fails with an exception, later cached reads do not return a value that the device never confirmed, and a later cached write of the same value is actually sent.", "quantifier": "every access history with failures at any point", "why_tests_cant": "needs failures at every point of every history", "anchors": ["canopen_master/include/canopen_master/objdict.h: ObjectStorage::Data"]}
{"id": "C22", "title": "Read-only and constant objects are never written", "statement": "No access history ever sends a write for an object that is not writable, except while the value equals the one already held; constant objects are never written; writes attempted on them fail with an exception; objects that are not readable are never read from the device.", "quantifier": "every access history and every access type", "why_tests_cant": "unbounded histories", "anchors": ["canopen_master/include/canopen_master/objdict.h: ObjectStorage::Data, Entry", "canopen_master/src/objdict.cpp: set_access"]}
{"id": "C23", "title": "Object key text codec", "statement": "Printing an object key and parsing it gives the same key; distinct keys have distinct hashes and texts.", "quantifier": "every key (2^16 indices x 2^8 sub-indices, with and without sub-index)", "why_tests_cant": "2^24 keys, pairwise", "anchors": ["canopen_master/include/canopen_master/objdict.h: ObjectDict::Key", "canopen_master/src/objdict.cpp: Key"]}
{"id": "C24", "title": "Node-id relative values", "statement": "A '$NODEID+x' value evaluates to x plus the node id modulo the width of its type (for 32 and 64 bit signed types when the sum is representable), other values are independent of the node id, for both spellings of the operands' order.", "quantifier": "every number, type width and node id", "why_tests_cant": "number texts are unbounded", "anchors": ["canopen_master/include/canopen_master/objdict.h: NodeIdOffset", "canopen_master/src/objdict.cpp: parse_int, int_from_string"]}
{"id": "C25", "title": "Storage initialisation writes exactly what differs", "statement": "Initialising the object storage writes for each entry with a configured value exactly that value, unless it is already known to be on the device; entries without a configured value are never written.", "quantifier": "every dictionary and storage content", "why_tests_cant": "unbounded dictionaries", "anchors": ["canopen_master/src/objdict.cpp: ObjectStorage::Data::init, init_nolock, init_all"]}
{"id": "C26", "title": "SDO write delivers exactly the data", "statement": "Whenever an SDO write to a conforming server completes, the server has received exactly the bytes given, for every length.", "quantifier": "every data length and content", "why_tests_cant": "segment count is unbounded; tests never exchange real segments", "anchors": ["canopen_master/src/sdo.cpp: DownloadInitiateRequest, DownloadSegmentRequest, processFrame"]}
{"id": "C27", "title": "SDO read returns exactly the data", "statement": "An SDO read from a conforming server returns exactly the bytes the server holds, for every length.", "quantifier": "every data length and content, expedited or segmented", "why_tests_cant": "segment count is unbounded", "anchors": ["canopen_master/src/sdo.cpp: UploadInitiateResponse, UploadSegmentResponse, processFrame, transmitAndWait"]}
{"id": "C28", "title": "SDO write success means confirmed", "statement": "An SDO write returns without exception only if the server acknowledged every request of the transfer.", "quantifier": "every data and every sequence of frames and timeouts seen by the client", "why_tests_cant": "arbitrary adversarial response sequences", "anchors": ["canopen_master/src/sdo.cpp: transmitAndWait, processFrame"]}
{"id": "C29", "title": "SDO read success means complete data", "statement": "An SDO read returns without exception only if the received segments have alternating toggles, start with a matching initiate response for the same object and together have exactly the expected length, and then it returns exactly their concatenation.", "quantifier": "every sequence of response frames (conforming or not) and timeouts", "why_tests_cant": "arbitrary adversarial response sequences", "anchors": ["canopen_master/src/sdo.cpp: UploadSegmentResponse::test, read_data, transmitAndWait"]}
{"id": "C30", "title": "SDO memory safety", "statement": "No sequence of server responses makes the client access memory outside its buffers or the 8-byte payload.", "quantifier": "every request and every sequence of response frames", "why_tests_cant": "arbitrary adversarial response sequences", "anchors": ["canopen_master/src/sdo.cpp: apply_buffer, read_data, processFrame"]}
{"id": "C31", "title": "SDO termination", "statement": "Every SDO transfer ends after a bounded number of client requests determined by the data size, every request is sent only in answer to an accepted response, and toggles alternate starting at 0.", "quantifier": "every data and every sequence of response frames", "why_tests_cant": "arbitrary adversarial response sequences", "anchors": ["canopen_master/src/sdo.cpp: processFrame, transmitAndWait"]}
{"id": "C32", "title": "SDO aborts surface", "statement": "A server abort for the accessed object ends the transfer immediately with an exception, and protocol errors make the client send an abort with the object's index and sub-index.", "quantifier": "every transfer and every point at which the abort arrives", "why_tests_cant": "arbitrary crash points of the server", "anchors": ["canopen_master/src/sdo.cpp: processFrame, abort"]}
{"id": "C33", "title": "PDO packing", "statement": "Values written to mapped objects appear in the transmitted PDO at the mapped positions, and a received PDO delivers to every mapped object exactly its bytes; transmit packing followed by receive unpacking with the same mapping is the identity and dummy gaps do not shift data.", "quantifier": "every mapping (lengths and order) and every values", "why_tests_cant": "unbounded mappings", "anchors": ["canopen_master/src/pdo.cpp: TPDO::sync, RPDO::handleFrame, Buffer, parse_and_set_mapping"]}
{"id": "C34", "title": "PDO buffer semantics", "statement": "A mapped object is reported changed by the write cycle exactly when it was written since the last cycle; reading a mapped object returns the value of the last received PDO that contained it, or fails if none was received and no value was preset.", "quantifier": "every history of writes, cycles and receptions", "why_tests_cant": "unbounded histories", "anchors": ["canopen_master/src/pdo.cpp: PDOMapper::Buffer"]}
{"id": "C35", "title": "PDO transmission", "statement": "In a cycle a transmit PDO is sent exactly when at least one mapped object was written since the previous cycle, with the newest values for all of the mapped objects.", "quantifier": "every mapping and history", "why_tests_cant": "unbounded histories", "anchors": ["canopen_master/src/pdo.cpp: TPDO::sync"]}
{"id": "C36", "title": "PDO reception timeout", "statement": "For synchronous receive PDOs a missing PDO is reported (once) in the cycle in which the number of sync cycles since the last reception exceeds the limit, and never when one arrives at least that often; asynchronous PDOs never time out.", "quantifier": "every history of receptions and cycles, every transmission type", "why_tests_cant": "unbounded histories", "anchors": ["canopen_master/src/pdo.cpp: RPDO::sync, RPDO::handleFrame"]}
{"id": "C37", "title": "PDO communication parameter decoding", "statement": "The COB-ID object is decoded to the CAN identifier (11 or 29 bit), validity and remote-request flags, and the mapping entry to index, sub-index and length, exactly as CiA 301 lays out the 32 bits.", "quantifier": "every 32-bit value", "why_tests_cant": "2^32 values", "anchors": ["canopen_master/src/pdo.cpp: PDOid, PDOmap"]}
{"id": "C38", "title": "PDO reconfiguration protocol", "statement": "Whenever the master changes a PDO's mapping or parameters on the device it first disables the PDO, sets the entry count to zero before touching mapping entries, and finally restores the count and re-enables the PDO.", "quantifier": "every dictionary, overlay and device configuration", "why_tests_cant": "unbounded dictionaries", "anchors": ["canopen_master/src/pdo.cpp: PDO::parse_and_set_mapping, check_com_changed, check_map_changed"]}
{"id": "C39", "title": "Sync membership follows operational state", "statement": "A node takes part in sync exactly while it is operational: after every state change the node is registered with the sync layer iff its state is Operational, and registration/deregistration strictly alternate.", "quantifier": "every history of NMT messages and commands", "why_tests_cant": "unbounded histories", "anchors": ["canopen_master/src/node.cpp: switchState, start, stop"]}
{"id": "C40", "title": "Heartbeat supervision", "statement": "With supervision enabled a node is reported faulty exactly when no heartbeat arrived within the supervision window and never when heartbeats arrive in time; with supervision off it is never reported.", "quantifier": "every heartbeat period, schedule of heartbeats and checks", "why_tests_cant": "real-time schedules are unbounded", "anchors": ["canopen_master/src/node.cpp: checkHeartbeat, handleNMT, getHeartbeatInterval"]}
{"id": "C41", "title": "Node commands report success only when confirmed", "statement": "Reset, prepare, start and stop report success only if the device reached the requested state after the command within the timeout (or supervision is off where the command says so).", "quantifier": "every history of device messages and timeouts", "why_tests_cant": "all interleavings of device responses with the waiting command", "anchors": ["canopen_master/src/node.cpp: reset_com, reset, prepare, start, stop, wait_for"]}
{"id": "C42", "title": "Node boot sequence", "statement": "Initialising a node issues reset, then configuration (PDO, object values), then start, in that order; a failing step prevents all later ones and is reported as an error.", "quantifier": "every outcome of each step", "why_tests_cant": "failure at every step", "anchors": ["canopen_master/src/node.cpp: handleInit, handleRecover, handleShutdown"]}
{"id": "C43", "title": "Emergency handling", "statement": "An emergency message is recorded with its code; the error state reported is an error exactly when the last message carries a non-zero error register, and warnings stay visible until they are reset; re-initialisation clears them.", "quantifier": "every history of emergency frames and resets", "why_tests_cant": "unbounded histories", "anchors": ["canopen_master/src/emcy.cpp: EMCYHandler"]}
{"id": "C44", "title": "Sync counter", "statement": "With an overflow value n (2..240) the counter carried in sync messages always is in 1..n and successive messages carry cyclically successive values; with overflow 0 messages carry no counter.", "quantifier": "every overflow and number of cycles", "why_tests_cant": "unbounded cycles", "anchors": ["canopen_master/src/master_plugin.cpp: SimpleSyncLayer"]}
{"id": "C45", "title": "Sync is sent only while needed", "statement": "In each cycle a sync message is sent exactly if at least one node is registered, and waiting never moves the schedule backwards.", "quantifier": "every history of node registrations and cycles", "why_tests_cant": "unbounded histories", "anchors": ["canopen_master/src/master_plugin.cpp: ManagingSyncLayer, SimpleSyncLayer"]}
{"id": "C46", "title": "BCM sync follows running nodes", "statement": "The kernel-timed sync transmission is running exactly when every monitored known node was started and none stopped; it starts and stops following NMT commands and heartbeats of individual nodes.", "quantifier": "every history of NMT and heartbeat frames", "why_tests_cant": "unbounded histories", "anchors": ["canopen_master/include/canopen_master/bcm_sync.h: BCMsync"]}
{"id": "C47", "title": "402 status decoding", "statement": "Each status word is decoded to the CiA 402 state its bit pattern denotes, to unknown exactly when no state is denoted, independent of the don't-care bits.", "quantifier": "all 2^16 status words", "why_tests_cant": "65536 words; the tests check a few", "anchors": ["canopen_402/src/motor.cpp: State402::read"]}
{"id": "C48", "title": "402 commanded transitions are the standard's", "statement": "For every pair of states for which the driver has a transition, the control word it produces makes a conforming drive in the first state go to the second state, whatever the previous control word was; other control word bits are untouched.", "quantifier": "every pair of states and every previous control word", "why_tests_cant": "81 pairs x 2^16 words", "anchors": ["canopen_402/src/motor.cpp: Command402::TransitionTable, setTransition"]}
{"id": "C49", "title": "402 enabling reaches operation", "statement": "Starting from any state of a conforming drive, the driver's enabling procedure reaches Operation Enabled within a fixed small number of steps and stays there; no step of it passes through quick stop.", "quantifier": "every start state, control word and drive-internal timing", "why_tests_cant": "all start states x control words x event interleavings", "anchors": ["canopen_402/src/motor.cpp: switchState, nextStateForEnabling"]}
{"id": "C50", "title": "402 illegal transitions change nothing", "statement": "Requests for transitions that do not exist are refused and leave the control word as it was.", "quantifier": "every pair of states and control word", "why_tests_cant": "81 x 2^16", "anchors": ["canopen_402/src/motor.cpp: Command402::setTransition"]}
{"id": "C51", "title": "Mode bits and halt bit", "statement": "A written control word has the halt bit cleared exactly when the drive is enabled and the active mode has a target to execute; mode specific bits are controlled by the active mode only and are cleared when the drive's mode differs; state machine bits are never changed by mode handling.", "quantifier": "every state, mode behaviour, and control word", "why_tests_cant": "all modes x states x 2^16 words", "anchors": ["canopen_402/src/motor.cpp: handleWrite", "canopen_402/include/canopen_402/motor.h: WordAccessor"]}
{"id": "C52", "title": "Fault reset is edge triggered", "statement": "After an init or recover the first control word sent never has the fault reset bit set, so that the next word with the bit is a rising edge.", "quantifier": "every state and control word history", "why_tests_cant": "unbounded histories", "anchors": ["canopen_402/src/motor.cpp: handleWrite, handleInit, handleRecover"]}
{"id": "C53", "title": "Targets are accepted only when enabled", "statement": "A target is accepted only if the drive is in Operation Enabled and a mode is selected; otherwise it is rejected and the target unchanged.", "quantifier": "every state, mode, and target", "why_tests_cant": "all states x doubles", "anchors": ["canopen_402/src/motor.cpp: setTarget"]}
{"id": "C54", "title": "Targets are clamped and truncated", "statement": "For each double the integer target is the value truncated towards zero if representable, the nearest limit of the target type otherwise (including infinities); NaN is rejected and the old target kept.", "quantifier": "every double (finite, infinite, NaN) and every integer type", "why_tests_cant": "2^64 doubles times 8 types", "anchors": ["canopen_402/include/canopen_402/motor.h: ModeTargetHelper"]}
{"id": "C55", "title": "Profiled position handshake", "statement": "In profiled position mode each new target is written to the device before new-setpoint is raised, new-setpoint is raised only while the drive does not acknowledge a previous one and is lowered once acknowledged, and the latest target is eventually commanded if the drive follows the handshake.", "quantifier": "every history of targets, acknowledgements and cycles", "why_tests_cant": "unbounded histories", "anchors": ["canopen_402/include/canopen_402/motor.h: ProfiledPositionMode"]}
{"id": "C56", "title": "Operation mode support", "statement": "A mode can be entered only if the device announces it in object 6502 and a handler is registered for it; homing can never be entered by the application.", "quantifier": "every mode number and supported-modes word", "why_tests_cant": "2^16 modes x 2^32 words", "anchors": ["canopen_402/src/motor.cpp: isModeSupported, isModeSupportedByDevice, allocMode, enterModeAndWait"]}
{"id": "C57", "title": "Mode switch success", "statement": "A mode switch reports success only when the device displays the requested mode and the drive is in Operation Enabled again; while a switch is in progress or failed no mode is executed.", "quantifier": "every history of device responses", "why_tests_cant": "all device response interleavings", "anchors": ["canopen_402/src/motor.cpp: switchMode"]}
{"id": "C58", "title": "Homing result", "statement": "Homing reports success only if the device signalled target reached and homing attained without error, and the homing start bit is lowered in every outcome.", "quantifier": "every sequence of status words and timeouts", "why_tests_cant": "unbounded status sequences", "anchors": ["canopen_402/src/motor.cpp: DefaultHomingMode"]}
{"id": "C59", "title": "Halt of a motor", "statement": "Halting an enabled motor commands quick stop, halting a motor in fault changes nothing, and a halt arriving while a state switch is in progress makes the switch fail unless its target was already reached.", "quantifier": "every state and interleaving", "why_tests_cant": "schedule dependent", "anchors": ["canopen_402/src/motor.cpp: handleHalt, switchState"]}
{"id": "C60", "title": "Chain services", "statement": "The init service reports success exactly when the stack was initialised or already is; recover acts only on an initialised chain; halt and shutdown always succeed; after shutdown the chain is off; a failed initialisation leaves the chain off.", "quantifier": "every sequence of service calls and every behaviour of the stack", "why_tests_cant": "unbounded histories", "anchors": ["canopen_chain_node/src/ros_chain.cpp: handle_init, handle_recover, handle_halt, handle_shutdown"]}
{"id": "C61", "title": "Sync parameter validation", "statement": "Configured sync interval and overflow are either rejected or used with the value given; accepted overflows are 0 or 2..240.", "quantifier": "every pair of integers", "why_tests_cant": "2^64 parameter pairs", "anchors": ["canopen_chain_node/src/ros_chain.cpp: setup_sync", "canopen_master/include/canopen_master/canopen.h: SyncProperties"]}
{"id": "C62", "title": "Node parameters override defaults", "statement": "Merged node parameters contain every node parameter with its own value, every default that the node does not set, and nested structures are merged recursively by the same rule.", "quantifier": "every pair of nested parameter structures", "why_tests_cant": "unbounded nesting", "anchors": ["canopen_chain_node/include/canopen_chain_node/ros_chain.h: MergedXmlRpcStruct"]}
{"id": "C63", "title": "Controller switch admission", "statement": "A controller switch is accepted only if every joint it claims supports a mode for the claimed interface, no joint is claimed for two conflicting interfaces, and required modes agree; a rejected switch does not change anything.", "quantifier": "every set of controllers, joints and modes", "why_tests_cant": "unbounded sets", "anchors": ["canopen_motor_node/src/robot_layer.cpp: prepareSwitch"]}
{"id": "C64", "title": "Controller switch execution", "statement": "After a controller switch every joint whose controller could not be started is stopped together with all other joints of that controller, and stopped joints have no active mode.", "quantifier": "every set of controllers and switch outcomes", "why_tests_cant": "every failure point of the switch", "anchors": ["canopen_motor_node/src/robot_layer.cpp: doSwitch"]}
{"id": "C65", "title": "Commands are forwarded only in the right mode", "statement": "A command from ROS is forwarded to the motor only if forwarding was enabled for the mode that is currently selected, converted by the configured expression, and is never forwarded in other states.", "quantifier": "every mode, command and history", "why_tests_cant": "unbounded histories", "anchors": ["canopen_motor_node/src/handle_layer.cpp: handleWrite, switchMode, forwardForMode"]}
{"id": "C66", "title": "Unit conversion helpers", "statement": "The helper functions compute what they are named after: avg the arithmetic mean of the leading defined values, smooth the exponential smoothing, norm the representative of the value in [min,max) modulo the range.", "quantifier": "every argument list of real values", "why_tests_cant": "unbounded argument lists", "anchors": ["canopen_motor_node/include/canopen_motor_node/unit_converter.h: avg, smooth, norm"]}
{"id": "C67", "title": "SDO transfers complete", "statement": "An SDO read or write of any length with a conforming server that accepts the access completes without exception.", "quantifier": "every object, every data and length, servers with and without expedited transfer, size indication and size check", "why_tests_cant": "unbounded lengths and all protocol variants of the server", "anchors": ["canopen_master/src/sdo.cpp: InitiateLong::apply_buffer, data_size, transmitAndWait"]}
{"id": "C68", "title": "No object is connected to a destroyed PDO buffer", "statement": "After the PDOs of a node have been set up, every object of the dictionary is connected either to the SDO access or to a buffer that still exists, so that later reads and writes of objects are defined.", "quantifier": "every dictionary, overlay, device behaviour and number of PDOs", "why_tests_cant": "requires objects whose PDO was rejected or destroyed; every combination of dictionary entries", "anchors": ["canopen_master/src/pdo.cpp: PDOMapper::init, RPDO::init, TPDO::init, PDO::parse_and_set_mapping"]}
{"id": "C69", "title": "Mapped objects are accessed through their PDOs", "statement": "Once an object is mapped to a receive PDO its reads come from that PDO, once it is mapped to a transmit PDO its writes go to that PDO; a direction without mapping uses SDO, and mapping one direction does not affect the other.", "quantifier": "every history of accesses and mappings of an object", "why_tests_cant": "unbounded histories; needs objects mapped in several PDOs", "anchors": ["canopen_master/src/objdict.cpp: ObjectStorage::map", "canopen_master/include/canopen_master/objdict.h: Data::set_delegates"]}
{"id": "C70", "title": "Heartbeats never stop the receiving thread", "statement": "Every heartbeat frame a node receives, in any history, is handled without an exception leaving the receiving thread.", "quantifier": "every history of commands, heartbeats and timeouts, every dictionary", "why_tests_cant": "needs particular dictionaries and the real threading of the receive thread", "anchors": ["canopen_master/src/node.cpp: handleNMT, getHeartbeatInterval"]}
{"id": "C71", "title": "One control loop per chain", "statement": "While a chain is initialised exactly one control loop thread runs, and none while it is off; shutting down never works on a missing thread.", "quantifier": "every sequence of service calls and every scheduling of the loop thread", "why_tests_cant": "thread scheduling decides; a test sees one schedule", "anchors": ["canopen_chain_node/src/ros_chain.cpp: run, handle_init, handleShutdown"]}
{"id": "C72", "title": "Sync node restores operation", "statement": "The sync node initialises or recovers its stack in every diagnostics period in which it does not run and its layers work, and a running stack is left alone.", "quantifier": "every behaviour of the layers in every period", "why_tests_cant": "all failure histories", "anchors": ["canopen_chain_node/src/sync_node.cpp: report_diagnostics"]}
{"id": "C73", "title": "Object names with force mark", "statement": "In the lists of objects to log or publish the text before the first '!' names the object, and reading is forced exactly if there is a '!'.", "quantifier": "every text", "why_tests_cant": "all texts", "anchors": ["canopen_chain_node/src/ros_chain.cpp: parseObjectName"]}
{"id": "C74", "title": "State listeners follow the node", "statement": "State listeners of a node are called exactly when its state changes, once per change and with the new state, so that the last state told is the state of the node.", "quantifier": "every history of commands, heartbeats and timeouts", "why_tests_cant": "unbounded histories and interleavings of heartbeats with commands", "anchors": ["canopen_master/src/node.cpp: switchState, reset, reset_com", "canopen_master/include/canopen_master/canopen.h: addStateListener"]}
{"id": "C75", "title": "EDS objects end up in the dictionary", "statement": "Reading an EDS file yields a dictionary with an entry for each object and sub-object listed in the file, with the index, type, access, mapping flag, name, default and configured value shown there, and no other entries.", "quantifier": "every EDS file", "why_tests_cant": "unbounded files; interplay of names, number formats, types and optional keys", "anchors": ["canopen_master/src/objdict.cpp: ObjectDict::fromFile, parse_object, read_var, ReadAnyValue"]}
{"id": "C76", "title": "Overlays configure exactly the named objects", "statement": "Each item of the dcf overlay becomes the configured value of the object it names and nothing else of the dictionary changes; an item that names no object is an error.", "quantifier": "every EDS file and every overlay", "why_tests_cant": "unbounded files and overlays", "anchors": ["canopen_master/src/objdict.cpp: ObjectDict::fromFile"]}
{"id": "C77", "title": "Object access by text", "statement": "Writing a text through the object services writes the value shown by the text or is refused; reading gives the text of the value; a text that was read can be written back unchanged.", "quantifier": "every object type, value and text", "why_tests_cant": "all values and texts of all types", "anchors": ["canopen_master/src/objdict.cpp: formatValue, PrintValue, WriteStringValue", "canopen_chain_node/src/ros_chain.cpp: handle_get_object, handle_set_object"]}
{"id": "C78", "title": "Start and stop of the CAN layer", "statement": "An initialisation or recovery of the CAN layer that reports no error leaves a driver that is ready and receives frames until the next call; a shutdown that returns leaves the driver closed without socket and thread, so that it can be initialised again.", "quantifier": "every interleaving of the calling thread, the driver's thread and failing transmissions or receptions", "why_tests_cant": "tests see a few schedules; the races need particular interleavings", "anchors": ["canopen_master/include/canopen_master/can_layer.h: handleInit, handleShutdown, handleRecover", "socketcan_interface/include/socketcan_interface/asio_base.h: run, shutdown, setNotReady", "socketcan_interface/include/socketcan_interface/threading.h: StateWaiter"]}
{"id": "C79", "title": "Waiting for the CAN driver ends", "statement": "A shutdown of the CAN layer always returns, and waits for a driver state do not miss the change they wait for.", "quantifier": "every fair interleaving of the calling thread and the driver's thread", "why_tests_cant": "liveness over all schedules", "anchors": ["canopen_master/include/canopen_master/can_layer.h: handleShutdown", "socketcan_interface/include/socketcan_interface/threading.h: StateWaiter::wait", "socketcan_interface/include/socketcan_interface/asio_base.h: run, shutdown_internal"]}
{"id": "C80", "title": "Object access end to end", "statement": "Through the object storage and the SDO client, a successful set leaves exactly the given value in the object of the device, a refused one leaves the object unchanged, an uncached get returns the value the device holds, and cached gets agree with the device as long as nothing failed and only the master changes the object. Integers written and read as text keep their value.", "quantifier": "For all objects of numeric types and strings of 1 to 255 bytes, all conforming SDO servers (expedited or not, with or without size indication, refusing any requests), all histories of cached and uncached gets and sets and of changes made by the device", "why_tests_cant": "Needs an SDO server on the bus; tests cover single transfers, not all combinations of cache state, transfer type and refusal", "anchors": ["canopen_master/include/canopen_master/canopen.h:57-67", "canopen_master/include/canopen_master/objdict.h:339-377", "canopen_master/src/sdo.cpp:298-451"]}
{"id": "C81", "title": "Production of the heartbeat", "statement": "If a heartbeat message and rate are configured, they are accepted exactly if the rate is positive and the text is a valid frame, and the frame sent is the configured one. From a successful initialisation on, a heartbeat is sent after every period until the chain is shut down, without accumulating delays; it is never sent faster than configured whatever the history of services, and not at all while the chain is off or no heartbeat is configured.", "quantifier": "All texts and rates; all interleavings of services, passing of time, expirations and runs of the timer's thread, with any frames failing to be sent", "why_tests_cant": "Timers, cancellations and services interleave in unboundedly many ways; tests see one schedule and a few periods", "anchors": ["canopen_master/include/canopen_master/timer.h:Timer", "canopen_chain_node/src/ros_chain.cpp:RosChain::setup_heartbeat", "canopen_chain_node/src/ros_chain.cpp:RosChain::handle_init", "canopen_chain_node/src/ros_chain.cpp:RosChain::handleShutdown"]}
{"id": "C82", "title": "Layer states under concurrency", "statement": "While one service at a time and the control loop use a layer at the same time: whenever both are done the layer is off, ready or in error; it is off exactly if it was shut down last, ready exactly if init or recover ran last, in error exactly if it was halted last. Handlers of the control loop are not called for a layer that is off.", "quantifier": "All interleavings of the single reads and writes of the atomic state by both threads, with all results of handlers", "why_tests_cant": "The windows between reading and writing the state are a few instructions wide; tests hit them by chance only", "anchors": ["canopen_master/include/canopen_master/layer.h:Layer", "canopen_chain_node/src/ros_chain.cpp:RosChain::run"]}
{"id": "C83", "title": "Controllers are updated once per cycle, with exact periods and one reset", "statement": "Between a successful init and the shutdown every cycle of the control loop calls the update of the one existing controller manager once and enforces the joint limits after it with the same period and reset flag. The reset flag is set for exactly the first update after an init or a recover. The period is the configured positive update interval, or with use_realtime_period the time since the previous update (since init for the first), so that the periods add up to the elapsed time. While the layer is off nothing is updated. No manager is used after it was destroyed, and the layer reports errors only when the controllers throw.", "quantifier": "all sequences of init, recover, halt, shutdown and passing time, interleaved with the steps of the control loop, any exceptions of controllers", "why_tests_cant": "The reset flag is exchanged atomically between two threads and last_time_ carries over cycles of arbitrary length; tests see a few interleavings of services and loop.", "anchors": ["canopen_motor_node/src/controller_manager_layer.cpp:6-53", "canopen_motor_node/include/canopen_motor_node/controller_manager_layer.h:19-50", "canopen_motor_node/src/motor_chain.cpp:61-86", "canopen_master/include/canopen_master/layer.h:77-123"]}
{"id": "C84", "title": "The nodes of a chain are those of the parameters", "statement": "If the set-up of a chain succeeds there is one node per entry of the parameter 'nodes' (list or structure), in order: with the entry's own id, the dictionary of the configured EDS file (below the package if that is known) with exactly the configured overlay, the configured or implied name, and exactly the configured objects to log and publish, each with its level, topic, forced flag and shown name; entry values take precedence over defaults. The set-up succeeds whenever all entries are such descriptions. Services find each node by its name and no other.", "quantifier": "all parameters, defaults, dictionaries and lists of nodes", "why_tests_cant": "Parameters are open-ended trees merged recursively with defaults; tests configure a few nodes.", "anchors": ["canopen_chain_node/src/ros_chain.cpp:413-577", "canopen_chain_node/include/canopen_chain_node/ros_chain.h:21-71", "canopen_chain_node/src/ros_chain.cpp:17-66"]}
{"id": "C85", "title": "SDO responses reach the right call", "statement": "An SDO client sends its requests with the identifier configured in object 1200sub1 (0x600 + node id by default) and processes exactly frames with the identifier of 1200sub2 (0x580 + node id by default), in order and each once; all other traffic has no effect on it. Every call that returns behaves as one of the transfers of C26 to C32 on these frames, and every response that is processed was received after the request it is taken for.", "quantifier": "every dictionary, node id, sequence of calls, and interleaving of received frames, steps of the calling thread and timeouts", "why_tests_cant": "the reader between bus and transfer keeps frames across calls; it takes particular interleavings of late frames, timeouts and the end of a call to see it", "anchors": ["canopen_master/src/sdo.cpp: SDOid, SDOClient::init, transmitAndWait", "canopen_master/include/canopen_master/canopen.h: SDOClient", "socketcan_interface/include/socketcan_interface/reader.h: BufferedReader, ScopedEnabler"]}
{"id": "C86", "title": "PDO set-up follows the dictionary", "statement": "When a node is initialised, the PDO mapper reads communication and mapping parameters from the object dictionary (configured values before defaults, node id added to the identifier if the entry says so). If the set-up ends normally, the master has exactly the PDOs the dictionary describes as present and valid, in order and limited to the given numbers: for each PDO the device sends, a receiver that listens for exactly the configured identifier (standard or extended) and connects the k-th mapped object with the k-th slice of the data, of the mapped size, with padding entries skipped; for each PDO the device receives, a transmitter with the configured identifier, length equal to the sum of the mapped sizes, connected to the objects in the same way. All other objects keep their access paths. From then on reads and writes of the mapped objects go through the PDOs as described in C34 to C36.", "quantifier": "forall dictionaries, node ids, devices (any answers), states of the object storage before the set-up, numbers of PDOs, and all later histories of receptions, cycles and reads", "why_tests_cant": "Tests use one or two fixed mappings; the mapping is a table interpreted at run time over up to 2x512 PDOs with 64 entries each, with configured/default values, padding and invalid bits.", "anchors": ["canopen_master/src/pdo.cpp:10-140", "canopen_master/src/pdo.cpp:141-330", "canopen_master/include/canopen_master/canopen.h:60-170"]}
{"id": "C87", "title": "Motor initialisation brings the drive to operation enabled", "statement": "If the initialisation of a motor layer reports no error, then during it the drive has reported the state operation enabled, and if homing mode is among its modes, it has reported homing mode as active and, unless the homing method is 0, completed homing without error; no mode is selected afterwards. Otherwise exactly one of the documented errors is reported: drive not enabled, wrong homing handler, homing mode not entered, homing failed. The start bit of the homing procedure is requested only while homing is waited for, with the drive seen enabled and in homing mode. After a successful initialisation the drive is enabled.", "quantifier": "every behaviour of the drive (sequences of status words and displayed modes), every interleaving of the initialising thread with the control loop, halts, timeouts and exceptions", "why_tests_cant": "the initialisation waits in three nested loops for a drive that may answer anything at any time while the control loop runs; tests try one well-behaved drive", "anchors": ["canopen_402/src/motor.cpp: Motor402::handleInit, switchState, switchMode", "canopen_402/src/motor.cpp: DefaultHomingMode::executeHoming"]}
{"id": "C88", "title": "Motor recovery and shutdown", "statement": "A recovery of a motor layer that reports no error ends with operation enabled seen, a fault reset requested, and the mode in use kept, restarted and without a target; otherwise it reports that the mode could not be restarted or that the drive was not enabled. After a shutdown no mode is in use; a shutdown that reports no error has seen the drive in the state switch on disabled.", "quantifier": "every behaviour of the drive, every interleaving with the control loop, halts, timeouts and exceptions", "why_tests_cant": "requires halts and status changes at chosen points between the steps of the shutting down thread", "anchors": ["canopen_402/src/motor.cpp: Motor402::handleRecover, handleShutdown, switchState, handleHalt"]}
{"id": "C89", "title": "Supervision of motors by the control loop", "statement": "In each cycle a motor reports to the control loop: an error if the active mode finds one in the status word (following, homing and limit errors of the modes), a warning if the drive displays another mode than the selected one, an error when the internal limit becomes active while the layer is ready and a warning while it stays active. A drive that enters a fault is reported as an error.", "quantifier": "all histories of status words and displayed modes, all selected modes", "why_tests_cant": "edge-triggered reports depend on the whole history of status words", "anchors": ["canopen_402/src/motor.cpp: Motor402::readState, handleRead"]}
{"id": "C90", "title": "Diagnostics of a motor", "statement": "The diagnostics of a motor follow from the last status word: a warning if operation is not enabled or the warning bit is set; an error on quick stop, fault, unknown state or active internal limit; nothing exactly if operation is enabled without warning and limit.", "quantifier": "all histories of status words", "why_tests_cant": "all 65536 status words after any history", "anchors": ["canopen_402/src/motor.cpp: Motor402::handleDiag, readState"]}
{"id": "C91", "title": "Diagnostics are complete and not overstated", "statement": "The diagnostic status published for a group of layers has as level the highest severity any participating layer reports (0 if none), as message exactly the texts they report joined by '; ' in order, and as values exactly those they give; an exception in a handler counts as an error with its text and drops only what that handler would have reported later. Layers take part if they and all surrounding groups are past initialisation and not being shut down and no group hides them. A logger adds the configured objects whose level does not exceed the published level, in order, reading no other object, and shows '<ERROR>' for an object that cannot be read.", "quantifier": "all trees of layers with all layer states and all reports including exceptions, all configured entries", "why_tests_cant": "combination over arbitrary trees of layers and states with exceptions at any point", "anchors": ["canopen_master/include/canopen_master/layer.h: Layer::diag, LayerGroup, DiagGroup, LayerReport, LayerStatus::set", "canopen_chain_node/include/canopen_chain_node/ros_chain.h: Logger::log, log_entry"]}
{"id": "C92", "title": "Published status of nodes and of the chain", "statement": "The status published for a motor node is an error if and only if the node is not operational, its heartbeat is missing, the drive reports quick stop, fault, unknown state or limit, or the error register cannot be read or shows an error or the list of errors cannot be read; a warning if and only if none of this holds but the drive is not enabled or warns or another error bit is set; otherwise it is OK. The chain is reported as not initialised when off, as an error when its thread is not running, and otherwise with the state of CAN, sync and nodes.", "quantifier": "all node states, status words, error registers and error lists, all layer states", "why_tests_cant": "all combinations of layer states, node states, status words and registers; the failing cases are transient or need an unreachable device", "anchors": ["canopen_chain_node/include/canopen_chain_node/ros_chain.h: Logger::log", "canopen_chain_node/src/ros_chain.cpp: report_diagnostics, setup_nodes", "canopen_master/src/node.cpp: handleDiag, handleShutdown", "canopen_master/src/emcy.cpp: handleDiag", "canopen_master/include/canopen_master/can_layer.h: handleDiag"]}
{"id": "C93", "title": "Object services act on exactly the object named", "statement": "The services get_object and set_object look up the node by name and the object by its text. A request for an unknown node or object fails with a message and has no effect. Any other request accesses only the named object of the named device and leaves all other devices, cached values and objects as they are; it is successful if and only if there is no message. A successful uncached get returns the decimal text of the number the device holds; it fails only if the device refuses or does not answer. A successful uncached set leaves the device with the number written; if it fails the device holds what it held. No history of requests leads to undefined behaviour.", "quantifier": "all chains of devices and dictionaries, all histories of requests (any texts) and of changes by the devices, all behaviours of the SDO servers", "why_tests_cant": "the result depends on the whole history of cached values and on every text and integer type; failures need refusing or silent devices", "anchors": ["canopen_chain_node/src/ros_chain.cpp: handle_get_object, handle_set_object", "canopen_master/src/objdict.cpp: getStringReader, getStringWriter", "canopen_master/include/canopen_master/objdict.h: ObjectStorage::entry", "canopen_master/src/sdo.cpp: SDOClient::read, write"]}
{"id": "C94", "title": "Joint values come from the device's objects", "statement": "The measured position, velocity and effort of a joint are the values of the configured expressions, in which a name 'objXXXX' stands for the value last read from the object of that key and every other name is undefined (not a number) until assigned; if the device answers, the values are those of the current cycle. With a filter configured, the value is the output of a filter configured anew at initialisation and fed with the expression's value of each read since. Values change only by reads while the layer is past start-up and by initialisations, and an initialisation forgets what expressions stored before.", "quantifier": "all expressions, dictionaries and filters; all histories of initialisations, reads with any answers of the device, commands, limits and writes", "why_tests_cant": "values depend on the whole history of reads and failures; the wrong first value depends on the contents of memory", "anchors": ["canopen_motor_node/include/canopen_motor_node/handle_layer.h: ObjectVariables", "canopen_motor_node/include/canopen_motor_node/unit_converter.h", "canopen_motor_node/src/handle_layer.cpp: handleRead, handleInit, prepareFilters"]}
{"id": "C95", "title": "Joint commands are limited, converted and forwarded", "statement": "In each cycle in which the layer is ready and a handle forwards, the target given to the motor is the value of that kind's target expression for the command of that kind; the commands of the other kinds follow the measured values. Otherwise nothing is sent and, when ready, all commands follow the measured values. If limits of the kind are registered and enabled, the command that becomes a target is one the limits allow; without, commands are unchanged. With the default conversions, a measured position commanded back gives the same position of the device, and a command is met up to half a unit of the device (a two-thousandth of a degree) and the rounding of doubles.", "quantifier": "all expressions, limits, states and histories; for the default conversions all positions, with exact numbers and with IEEE doubles (32-bit positions)", "why_tests_cant": "all histories and values; the rounding claim is about all numbers", "anchors": ["canopen_motor_node/src/handle_layer.cpp: handleWrite, enforceLimits, registerHandle", "canopen_motor_node/include/canopen_motor_node/unit_converter.h", "canopen_motor_node/src/robot_layer.cpp: registerHandle, enforce"]}
{"id": "C96", "title": "Composition and order of a motor chain", "statement": "A motor chain is set up if and only if the device, driver and master are available and no master type is given, the sync and update intervals and the heartbeat are valid, and every entry of the list of nodes describes a node with a motor and a joint handle. It then consists, bottom up, of the CAN layer, the sync layer if there is an interval, the nodes, the motors, the joints, the controllers (with the update interval as fixed period unless the real-time period is wanted) and the emergency handlers, with one node, motor, joint and emergency handler per entry in the order of the entries. In every cycle each layer reads once and writes once; for every node the data of the cycle pass from the bus to node, motor, joint and controllers, and the commands of the controllers pass back to the bus in the same cycle. Initialisation starts no layer before those below it and nothing after a failure; shutting down goes top down and leaves everything off.", "quantifier": "all parameters and lists of nodes of any length; all behaviours of the layers; all states reached", "why_tests_cant": "the order depends on the order of calls in several classes and holds for any number of nodes; a test sees one configuration and cannot see the order of events inside a cycle", "anchors": ["canopen_motor_node/src/motor_chain.cpp:9-84", "canopen_chain_node/src/ros_chain.cpp:282-470", "canopen_chain_node/src/ros_chain.cpp:606-634", "canopen_master/include/canopen_master/layer.h"]}
{"id": "C97", "title": "Every configured joint is offered to controllers", "statement": "Each node of a motor chain has one joint: the one configured, else its configured name, else its name in the list; a joint the URDF does not know makes the set-up fail. Every joint handle is found under its joint's name and registered with the hardware interfaces exactly once, however often the chain is initialised.", "quantifier": "all configurations, all numbers of initialisations", "why_tests_cant": "depends on the names of all nodes and on repeated initialisations; the failing case is a configuration that nobody tests", "anchors": ["canopen_motor_node/src/motor_chain.cpp:9-59", "canopen_motor_node/src/robot_layer.cpp:26-72"]}
{"id": "C98", "title": "Settings are found, read and defaulted as documented", "statement": "The setting with a name such as error_mask/CAN_ERR_ACK is there exactly if that path leads to a parameter, and it is the text of that parameter. A missing setting gives the default; a setting whose text is not a value of the type gives an exception and never the default. A map of settings returns what was set last for each name, and numbers and truth values survive being set and read. The settings of a motor and the error masks of the driver are those the parameters say, with the documented defaults for the others, and a number is taken as it was written.", "quantifier": "all nested parameters, all names, all texts, all sequences of set", "why_tests_cant": "paths, texts and the combinations of nine conditions in two groups cannot be enumerated; the failing case is a negative number no test gives", "anchors": ["socketcan_interface/include/socketcan_interface/settings.h", "socketcan_interface/include/socketcan_interface/xmlrpc_settings.h", "socketcan_interface/include/socketcan_interface/socketcan.h:28-44", "canopen_402/include/canopen_402/motor.h:295-300"]}
{"id": "C99", "title": "Following the SYNC messages of another master", "statement": "With an external SYNC the read of every cycle takes the newest SYNC message, in order and none twice, and nothing from before the initialisation. It ends within one and a half periods whatever arrives, and half a period after its message. A caller that was late comes back into phase by itself.", "quantifier": "all arrival times, all starts of cycles, all durations of cycles and delays", "why_tests_cant": "needs arbitrary timing of messages and caller over many cycles; a test sees one timing", "anchors": ["canopen_master/src/master_plugin.cpp:95-118", "socketcan_interface/include/socketcan_interface/reader.h"]}
{"id": "C100", "title": "A driver with its own thread starts and stops as its results say", "statement": "Initialising a threaded driver returns true exactly when the driver is ready and served by one thread, never two; it is served until shutdown is called. After shutdown the driver is closed and no thread is left, and it can be initialised again; shutdown always returns. A driver that lost the bus is made ready by initialising it again.", "quantifier": "all interleavings of the calling thread, the thread of the driver, deadlines and failures on the bus, all sequences of calls", "why_tests_cant": "depends on interleavings and on failures at any moment", "anchors": ["socketcan_interface/include/socketcan_interface/threading.h:38-88", "socketcan_interface/include/socketcan_interface/asio_base.h"]}
{"id": "C101", "title": "Bus errors are described completely", "statement": "The description of a bus error names exactly the conditions of the error: two errors with the same description have the same conditions, 'OK' means no error, and every condition that can be configured has a description.", "quantifier": "all error words", "why_tests_cant": "all combinations of conditions; the missing ones are not among the examples of a test", "anchors": ["socketcan_interface/include/socketcan_interface/socketcan.h:92-128", "canopen_master/include/canopen_master/can_layer.h:44-68"]}
{"id": "C102", "title": "Published objects", "statement": "In every cycle of a chain in operation (ready, halted or recovering) each object listed under 'publish' is published once on its topic, in the order of the list: for a name marked with '!' the value its device or PDO delivers at that moment, otherwise the value held after all accesses so far, read once if there is none. Nothing is published in other states. An object that cannot be read is reported and does not affect the other objects, and no value is published that was neither configured, written nor received.", "quantifier": "every list of objects and dictionary, every history of cycles, states, answers and failures of devices, and accesses by other threads in between", "why_tests_cant": "Which values are on the topics depends on the whole history of accesses by services, motor layers and earlier cycles, their interleaving with the loop and on which reads failed before; tests see a few cycles of a working device.", "anchors": ["canopen_chain_node/src/ros_chain.cpp:20-38", "canopen_chain_node/src/ros_chain.cpp:204-209", "canopen_master/include/canopen_master/objdict.h:339-354"]}
{"id": "C103", "title": "A command of a joint reaches the bus in the same cycle", "statement": "If a drive is enabled and displays the selected forwarding mode, one write pass turns the command of the joint into a frame: at the place of the mode's target object the frame carries the converted command, cut to a whole number within the limits of the object's type, in little endian two's complement, and at the place of the control word a word without halt bit, with the bits of the mode set and all other bits as they were. A command that is no number repeats the last target. With the default conversion the device is told a position that the driver would show as the commanded one up to half a thousandth of a degree. A drive that is not enabled or displays another mode gets no new target and a control word with the halt bit.", "quantifier": "All commands (finite, infinite, not a number), histories of the joint, forwarding modes, control words, mappings of a transmit PDO that contain the objects, and values held by the objects; positions up to 37000 rad for the default conversion", "why_tests_cant": "The path crosses four classes (HandleLayer, Motor402, object storage, TPDO); tests of the parts do not show that the value survives conversion, clamping, byte order and place in the frame for every command and every mapping.", "anchors": ["canopen_motor_node/src/handle_layer.cpp:146-170", "canopen_402/src/motor.cpp:245-251", "canopen_402/src/motor.cpp:414-437", "canopen_402/include/canopen_402/motor.h:142-209", "canopen_master/src/pdo.cpp:332-338"]}
{"id": "C104", "title": "A joint shows what its device reported in the last frame", "statement": "After a frame of a receive PDO, the next read pass gives every integer object that is mapped there the number at its place in the frame, by its size and sign, and the measured values of the joint without filters are the values of their expressions for these numbers; with the default conversion the position is the one in the frame. A device that goes to its target is therefore shown at the commanded position, up to half a thousandth of a degree.", "quantifier": "All frames that are long enough for the mapping, mappings of receive PDOs, orders of reading, expressions without assignments, histories of the joint with at least one read or initialisation before; commands up to 37000 rad for the way there and back", "why_tests_cant": "The value passes from the frame through buffers, caches, sign conversion, doubles and an expression; rounding over all commands and all layouts cannot be enumerated.", "anchors": ["canopen_motor_node/include/canopen_motor_node/handle_layer.h:34-70", "canopen_motor_node/src/handle_layer.cpp:138-145", "canopen_master/src/pdo.cpp:298-313", "canopen_master/include/canopen_master/objdict.h:399-406"]}
{"id": "C105", "title": "Threads do not block each other for good", "statement": "Calls of the functions of driver, nodes, motors and chain from any threads - control loop, services, diagnostics, timers, mode switches, the receiving thread - never block each other for good: in every state a thread that has to wait for a mutex waits, directly or through others, for a thread that can go on; no execution of finitely many calls is endless and all of them return. In particular no thread that waits for an answer keeps the receiving thread from delivering it.", "quantifier": "for every number of threads, every sequence of calls in each of them, every interleaving, every choice of branches, objects, nodes and early exits in the calls, every set of listeners", "why_tests_cant": "a deadlock needs a particular interleaving of two or three threads at a few instructions; tests hit it at random if at all", "anchors": ["socketcan_interface/include/socketcan_interface/dispatcher.h:26-109", "socketcan_interface/include/socketcan_interface/reader.h:29-109", "canopen_master/src/node.cpp:39-215", "canopen_master/src/sdo.cpp:373-451", "canopen_master/src/pdo.cpp:175-383", "canopen_master/include/canopen_master/bcm_sync.h:46-137", "canopen_402/src/motor.cpp:245-547", "canopen_chain_node/src/ros_chain.cpp:73-279"]}
{"id": "C106", "title": "Threads do not use the same data at the same time", "statement": "Threads of a running system (the control loop, the thread of the driver, the services, the diagnostics timer, the heartbeat timer, mode switches of the controller manager, set-up and tear-down) share the state of the driver, the listeners, the readers, the object storage and its entries, the PDO buffers and mappings, the state of nodes and motors, and the like. No two of them ever access the same piece of this data at the same moment if one of them writes it: each access is made under the mutex that belongs to the data, or before the object is shown to another thread.", "quantifier": "for any number of threads, any sequences of calls of the modelled entry points and any interleaving", "why_tests_cant": "A data race shows only in particular interleavings and is undefined behaviour even then; unit tests run one or two threads and cannot go through the interleavings or through all entry points.", "anchors": ["socketcan_interface/include/socketcan_interface/asio_base.h:24-121", "socketcan_interface/include/socketcan_interface/socketcan.h:208-263", "socketcan_interface/include/socketcan_interface/dispatcher.h:39-109", "socketcan_interface/include/socketcan_interface/reader.h:14-109", "canopen_master/include/canopen_master/objdict.h:293-522", "canopen_master/src/objdict.cpp:43-75", "canopen_master/src/pdo.cpp:86-383", "canopen_master/src/sdo.cpp:373-451", "canopen_master/src/node.cpp:39-215", "canopen_402/src/motor.cpp:7-547", "canopen_motor_node/src/handle_layer.cpp:138-215", "canopen_motor_node/src/controller_manager_layer.cpp:6-51", "canopen_chain_node/src/ros_chain.cpp:73-279"]}
{"id": "C107", "title": "Devices do not disturb each other", "statement": "On a bus whose devices use the predefined connection set of CiA 301, a frame concerns at most one node of the chain. What becomes of a node (its state and heartbeat supervision, the answers its SDO client waits for, its emergency state, its received process data) depends on the messages of its own device and on what the master does to this node only, whatever the other devices, the master and other participants send. No frame a device sends ends the master's process.", "quantifier": "every chain, every sequence of frames with any contents and length, interleaved with arbitrary actions of the master's other threads", "why_tests_cant": "interference would need particular combinations of identifiers of several devices; malformed frames are not sent by test devices", "anchors": ["canopen_master/src/node.cpp: handleInit, handleNMT", "canopen_master/src/sdo.cpp: SDOClient::init", "canopen_master/src/emcy.cpp: EMCYHandler", "canopen_master/src/pdo.cpp: RPDO::init, RPDO::handleFrame", "socketcan_interface/include/socketcan_interface/dispatcher.h"]}
{"id": "C108", "title": "The SYNC programs watch the nodes they are told to and refuse what they cannot do", "statement": "bcm_sync started as its usage message says watches exactly the nodes wanted: those given as +ID if there are any, all otherwise, and never one given as -ID; it uses the period, header and overflow given. Anything that is no valid header, overflow, node id or period ends the program. The SYNC node of ROS watches the nodes listed as monitored; otherwise all but those listed as ignored, and never counts its own heartbeat as that of a node.", "quantifier": "for all argument lists, all parameter sets and all node ids", "why_tests_cant": "A test starts the program with a few command lines on a virtual bus; that no spelling of the arguments selects other nodes, and what happens to every unreadable one, needs all argument lists.", "anchors": ["/repo/canopen_master/src/bcm_sync.cpp:5-56", "/repo/canopen_chain_node/src/sync_node.cpp:68-89", "/repo/canopen_master/include/canopen_master/bcm_sync.h:39-44"]}
{"id": "C109", "title": "canbcm sends what is typed and candump shows what was received", "statement": "canbcm sends the frames of its arguments cyclically, all under the header of the first, each with exactly the bytes typed, with the period given, and sends nothing if an argument is no frame. From a line of candump its reader can tell kind, identifier and payload of the frame: no two frames that differ in these are shown alike.", "quantifier": "for all arguments, periods and all valid frames", "why_tests_cant": "A test compares a few lines with expected output; that no two different frames share a line, and that no argument is sent as something else, is a statement about all frames and all texts.", "anchors": ["/repo/socketcan_interface/src/canbcm.cpp:8-40", "/repo/socketcan_interface/include/socketcan_interface/bcm.h:22-99", "/repo/socketcan_interface/src/candump.cpp:13-37"]}
{"id": "C110", "title": "The bridge node relays each wanted frame and each valid message exactly once and in order", "statement": "socketcan_bridge publishes on received_messages exactly the frames that pass the filters of can_ids (all frames if the parameter is not set), each once and in the order of reception, with identifier, flags, length and bytes of the frame; it gives to the bus exactly the messages of sent_messages that are frames, as these frames and in order, as long as the driver is ready and writes succeed; other messages are refused without effect. What is sent through one bridge is published by another one with the same content. The node starts unless a filter is neither number nor text.", "quantifier": "all histories of received frames, driver events and messages, all filter lists, all driver states", "why_tests_cant": "Needs arbitrary interleavings of bus traffic, driver failures and messages with arbitrary filters; tests send a few messages through a dummy interface and do not see what the reception buffer of the driver keeps from frame to frame.", "anchors": ["socketcan_bridge/src/socketcan_to_topic.cpp:34-117", "socketcan_bridge/src/topic_to_socketcan.cpp:48-74", "socketcan_bridge/src/socketcan_bridge_node.cpp:37-72", "socketcan_interface/include/socketcan_interface/socketcan.h:209-261", "socketcan_interface/include/socketcan_interface/filter.h:17-63"]}
{"id": "C111", "title": "The text of an EDS file is read as its lines say", "statement": "ObjectDict::fromFile takes from the text of an EDS file exactly the sections and items its lines give, with keys and values freed of white space at their ends. Lines that are blank or comments and the kind of line end make no difference. A text with a line that is no blank, comment, section or item, or that gives an item or a non-empty section twice (upper and lower case being the same), yields no dictionary. Every other text is read, and for a file that describes its objects as in C75 the dictionary has just these objects.", "quantifier": "for all texts and all overlays (overlays empty for the dictionary)", "why_tests_cant": "Tests read a few well-formed files of their own; they cannot show that no text is read in a second way, nor that every layout of a file is read alike.", "anchors": ["canopen_master/src/objdict.cpp:278-334"]}
{"id": "C112", "title": "Values configured in the EDS file or in an overlay are in the device after the node has booted", "statement": "If the text of an EDS file shows a set of objects and an overlay configures some of them, then initialising the storage of the node (as a node does after its PDO setup) with a device whose SDO server answers and does not refuse succeeds in whatever order the dictionary is traversed, and afterwards the device holds the configured value in every writable object that has one, while every object without a configured value, or without write access, is as before. With servers that refuse or fall silent, no object ever holds anything but its previous content or its configured value, and the initialisation fails only if a configured write was refused or not answered. Objects connected to PDOs or changed by the user since the reset are excepted.", "quantifier": "All texts of EDS files that show objects, all overlays, all orders of traversal, all contents of the storage and of the device, all servers (expedited, segmented, refusing, silent).", "why_tests_cant": "The way of a configured value leads through the text reader, the integer parser, the overlay, the dictionary, the storage and the SDO client; tests check single steps with single values, in the one order the map of the test run has.", "anchors": ["canopen_master/src/objdict.cpp", "canopen_master/src/node.cpp", "canopen_master/src/sdo.cpp", "canopen_master/include/canopen_master/objdict.h", "canopen_master/include/canopen_master/canopen.h"]}
{"id": "C113", "title": "A failing layer stops every enabled drive in the same cycle", "statement": "If any layer of a chain that is ready reports an error or throws in the read pass of a control cycle (a lost heartbeat, an EMCY, a bus error, another drive in fault), every drive that is in Operation Enabled after that pass is sent a control word with a quick stop in the write pass of the same cycle, and nothing but quick stops in later cycles, until the chain is recovered or restarted. If the error comes up in the write pass, this holds from the next cycle on. With a mapped control word the quick stop is in a PDO frame on the bus in the same pass, unless the drive was told it already. A drive that is not enabled keeps the commands it had, and without an error no drive is stopped.", "quantifier": "All trees of layers, all places and kinds of failures, all statuses and modes of the drives, all sequences of later cycles, diagnostics and halts.", "why_tests_cant": "Whether the halt comes between the read and the write of each drive depends on the order in which nested groups and stacks call and halt their members; tests drive a single motor and do not let an unrelated layer fail.", "anchors": ["canopen_master/include/canopen_master/layer.h", "canopen_chain_node/src/ros_chain.cpp", "canopen_402/src/motor.cpp", "canopen_402/include/canopen_402/motor.h", "canopen_master/src/node.cpp"]}
{"id": "C114", "title": "Initialising or recovering a node restores its configuration", "statement": "Whenever a node is initialised, for the first time or again, and whatever was read and written before, whatever the device holds and whatever it forgets when its communication is reset, the device holds the configured values afterwards if the initialisation succeeds; it does succeed if the device answers and refuses nothing. Objects without a configured value are as the device left them. A device that lost its values and is recovered without an error has its configuration back.", "quantifier": "All configurations and EDS texts, all contents of the storage and of the device, all effects of the reset and of the PDO setup on other objects, all orders of the dictionary, all behaviours of the servers that answer.", "why_tests_cant": "Tests initialise a storage once, without a device behind it that keeps values of earlier sessions; what a second initialisation or a recovery writes depends on what both sides hold then.", "anchors": ["canopen_master/src/node.cpp", "canopen_master/src/objdict.cpp", "canopen_master/include/canopen_master/objdict.h", "canopen_chain_node/src/ros_chain.cpp"]}
