# Formal model of ros_canopen: design

Source: `/repo` (ros-industrial/ros_canopen at the pinned commit). Model and
proofs: `/verif/rocq/theories`, Coq 8.16.1, standard library only.

Contents: [Method](#method), [Trusted base](#trusted-base),
[What is modelled](#what-is-modelled), [What is not modelled](#what-is-not-modelled),
[Plan per property](#plan-per-property), [Findings](#findings),
[Testing the theorems](#testing-the-theorems),
[Theorems and their assumptions](#theorems-and-their-assumptions).

## Method

* Every source function that is modelled becomes a small total Gallina function
  in a `*Model.v` file. A comment above each definition cites file and lines and
  says where the model is simpler than the code.
* Specifications live in `*Spec.v` files. They never mention model helpers that
  they are meant to constrain; they are written from the English property and,
  where one exists, from the CiA standard (reference drive, reference SDO
  server, abstract queue, ...).
* Proofs live in `*Proofs.v`; `*Props.v` holds the theorems named in
  `MANIFEST.json`, most of them closed by `exact lemma`, followed by
  `Print Assumptions` and by an `Example` that meets their hypotheses on a
  non-trivial case.
* Three shapes of statement: round trips, invariants by induction over arbitrary
  operation histories, and refinement to a small abstract machine. Whatever the
  environment decides (arriving frames, device answers, timeouts, exceptions
  thrown by handlers, scheduling) is an arbitrary list or function that the
  theorem quantifies over.
* Integers of fixed width are `Z` with explicit `mod 2^n`; undefined behaviour
  (out of bounds access, element of an empty container) is a separate outcome
  (`Undef`, Base.v) of the model functions, never a default value.
* When the faithful model violates the property as users would state it, the
  property text stays, a theorem `Cxx_..._refuted` exhibits the violation, and
  `Cxx_..._partial` proves the strongest true variant we found. The claim then
  has status `partial` in `MANIFEST.json`. See *Findings*.

## Trusted base

* Coq's kernel, including `vm_compute` (used for finite case analyses and for
  examples).
* What `Print Assumptions` reports under each theorem: for every theorem of
  `MANIFEST.json` it is `Closed under the global context`, i.e. no axiom. The
  table at the end of this file lists all of them. (The list of axioms of a
  whole-library check additionally names `Coq.ssr.ssrunder.Under_rel.*`: these
  belong to a module type of the standard library's ssreflect plugin which the
  files of the standard library load; no theorem uses them.)
* The correspondence of the `*Model.v` files with the C++ text. It was
  established by reading; the code was neither compiled nor run.
* Behaviour of the C and C++ library functions the code calls (stream
  extraction and insertion, `strtol`/`strtoul`, `sscanf`, `numeric_cast`,
  property trees, condition variables, vectors): modelled from their standard
  or documentation at the place of use. Little endian machine, bit fields
  allocated from the least significant bit, 64 bit pointers.
* Granularity of concurrency: an operation that holds a lock is one step; code
  that runs without a lock (state and mode switches of a motor, halting,
  homing, the control loop of a chain) is split at each access to shared state
  as described at the model.

## What is modelled

| Files | Source | Functions |
|---|---|---|
| `Can*` | socketcan_interface/interface.h, string.cpp | `Header`, `Frame`, `hex2dec`, `hex2buffer`, `buffer2hex`, `tostring`, `toheader`, `toframe` |
| `Filter*` | filter.h, string.cpp | `FrameMaskFilter`, `FrameRangeFilter`, `FilteredFrameListener`, `tofilter`, `tofilters` |
| `Reader*` | reader.h | `BufferedReader` (enable, flush, setMaxLen, handleFrame, read, readUntil) |
| `Dispatcher*` | dispatcher.h, dummy.h | `SimpleDispatcher`, `FilteredDispatcher`, `DummyBus`, `DummyInterface::send` |
| `SocketCan*` | socketcan.h, asio_base.h | `parse_error_mask`, `init`, `enqueue`, `readFrame`, `translateError`, driver state |
| `Bridge*` | socketcan_bridge | conversion of frames and messages, `TopicToSocketCAN::msgCallback`, `SocketCANToTopic::frameCallback` |
| `Layer*` | layer.h | `LayerStatus`, `Layer`, `LayerGroup`, `LayerGroupNoDiag`, `LayerStack` |
| `Key*` | objdict.h, objdict.cpp | `Key`, `int_from_string`, `parse_int`, `NodeIdOffset::apply` |
| `Storage*` | objdict.h, objdict.cpp | `ObjectStorage::Data`, `Entry`, `entry`, `init`, `init_all`, `reset`, `map`, `set_access` |
| `Eds*`, `Text*` | objdict.cpp | `fromFile`, `parse_object(s)`, `read_var`, `ReadAnyValue`, overlays, `getStringReader`, `getStringWriter` |
| `Sdo*` | sdo.cpp | all request and response classes, `processFrame`, `transmitAndWait`, `read`, `write`, `init` |
| `Pdo*`, `Route*` | pdo.cpp, objdict.cpp | buffers, `parse_and_set_mapping`, `check_com_changed`, `check_map_changed`, `RPDO`, `TPDO`, `PDOMapper::init`, delegates of mapped objects |
| `Node*` | node.cpp, canopen.h | NMT state, `handleNMT`, `checkHeartbeat`, commands with `wait_for`, `handleInit`, `handleRead`, `handleRecover`, `handleShutdown`, state listeners |
| `Emcy*` | emcy.cpp | `handleEMCY`, init, recover, diagnostics, `resetErrors` |
| `Sync*` | master_plugin.cpp, bcm_sync.h, bcm.h | `SimpleSyncLayer`, `BCMsync`, `BCMsocket::startTX` |
| `Motor*`, `Enable*`, `Pos*`, `Mode*`, `Homing*` | canopen_402 | `State402`, `Command402`, `ModeTargetHelper`, `ModeForwardHelper`, `ProfiledPositionMode`, `DefaultHomingMode`, `Motor402` (init, recover, halt, read/write of the control word, `switchState`, `switchMode`, `setTarget`, supported modes) |
| `Chain*` | canopen_chain_node | services and loop of `RosChain`, `setup_sync`, `MergedXmlRpcStruct`, `parseObjectName`, sync node |
| `Handle*`, `Robot*` | canopen_motor_node | `HandleLayer` (canSwitch, switchMode, forwardForMode, handleRead, handleWrite, select, addHandle), `InterfaceMapping`, `RobotLayer::prepareSwitch`, `doSwitch`, `ModeLookup` |
| `Unit*` | unit_converter.h | `rad2deg`, `deg2rad`, `norm`, `smooth`, `avg` |
| `Life*` | can_layer.h, threading.h, asio_base.h | `CANLayer` (init, shutdown, recover), `StateWaiter`, `AsioDriver::run`, `shutdown`, `setNotReady` as interleaving of threads |
| `Remote*` | canopen.h, objdict.h, sdo.cpp | composition of `Storage*`, `Sdo*` and `Text*`: the delegates of the storage are SDO transfers with the conforming server of `SdoSpec.v` |
| `Timer*` | timer.h, ros_chain.cpp | `Timer` (start, stop, restart, handler) over the asio timer (expiry, pending waits, queued completions), `setup_heartbeat`, and their use by the services of `Chain*`; the contents of doubles are fractions |
| `Race*` | layer.h, ros_chain.cpp | `Layer::init`, `shutdown`, `halt`, `recover`, `read`, `write` step by step: one thread for services, one for the control loop, arbitrary handlers |
| `Ctrl*` | controller_manager_layer.cpp, motor_chain.cpp | `ControllerManagerLayer`: handlers under the entry points of `Layer`; `handleWrite` in three steps interleaved with the services (atomic); nanoseconds instead of durations in doubles |
| `Setup*` | ros_chain.cpp, ros_chain.h | `setup_nodes`, `setup_node`, `addLoggerEntries`, `Logger::add`, `createPublishFunc` (which publisher is made), `nodes_lookup_`; parameters: contents of XmlRpc values, `ObjectDict::fromFile`, package paths, `nodeAdded` |
| `SdoChan*` | sdo.cpp, canopen.h, reader.h | `SDOid`, `SDOClient::init`, and `transmitAndWait` as steps interleaved with received frames, with the buffered reader of `Reader*` in between; calls are serialised by the client's mutex (the two seconds limit of the lock is not modelled) |
| `PdoSetup*`, `PdoNode*` | pdo.cpp | no new code; the functions of `PdoModel` (`PDO::parse_and_set_mapping`, `RPDO::init`, `TPDO::init`, `PDOMapper::init`) against a description of the dictionary |
| `Drive*` | canopen_402/src/motor.cpp:379-549 | `readState`, `handleRead`, `handleDiag`, `handleInit`, `handleRecover`, `handleShutdown` as steps of the calling thread (through `switchState` of `Enable*`, `switchMode` of `Mode*`, `executeHoming` of `Homing*`) interleaved with cycles of the control loop, halts, timeouts and exceptions |
| `Diag*` | layer.h, ros_chain.h, ros_chain.cpp:580-596, node.cpp, emcy.cpp, can_layer.h, bcm_sync.h | `Layer::diag`, `LayerReport`, `DiagGroup`, `LayerGroupNoDiag`, `Logger::log`, `log_entry`, `report_diagnostics` and the diagnostic handlers; numbers in values are not printed |
| `Service*` | ros_chain.cpp:249-281, objdict.h:474-505, objdict.cpp:439-480 | `handle_get_object`, `handle_set_object` over the models of keys, dictionary, storage, texts and SDO client; requests are atomic |
| `Joint*` | handle_layer.h:35-132, handle_layer.cpp:26-57, 99-215, unit_converter.h, robot_layer.cpp:54-81 | variables of objects, conversion expressions (arbitrary functions, bound at their first evaluation), filters and limits as arbitrary functions with a state, `handleRead`, `handleInit`, `handleWrite`, `enforceLimits`; default conversions with exact numbers |
| `Assembly*` | motor_chain.cpp, ros_chain.cpp:282-470, 606-634, robot_layer.cpp:26-72 | set-up of the bus, sync, heartbeat, nodes, motors and joint handles; the resulting tree of layers; registration of joints |
| `FloatProofs`, `JointRoundProofs` | handle_layer.cpp:32-33, unit_converter.h:58-63 | rounding errors of `SpecFloat` products, quotients, sums and integers (relative error 2^-53 in the middle of the range), and the default conversions with doubles; muParser's evaluation in doubles in the order of the expression is assumed |
| `SettingsModel` | settings.h; xmlrpc_settings.h; socketcan.h:28-44, 80-81; canopen_402/motor.h:295-300 | settings by name, maps, nested parameters, `lexical_cast` of `bool` and `unsigned int` without locales; printing of XmlRpc values is a parameter |
| `ExtSyncModel` | master_plugin.cpp:13-28, 95-118 | `ExternalSyncLayer` with times: arrivals, start of each read, delays; the reader is `ReaderModel` |
| `ThreadedModel` | threading.h:38-88 | `ThreadedInterface` over the driver of `LifeModel`, as interleaving of steps |
| `Pub*` | ros_chain.cpp:20-66, 204-209 | the functions of `publishers_` over the objects of `Storage*`, interleaved with accesses by other threads; message contents are the bytes of the value |
| `CycleModel` | handle_layer.h:34-70, motor.h:185-200, motor.cpp:245-251, 414-437 | write and read pass of one joint, put together from `JointModel`, `MotorModel` and `PdoModel`; order of the layers as in C96; the node is operational |
| `LockModel` | dispatcher.h:26-109, reader.h:29-109, threading.h:9-37, asio_base.h:45-117, socketcan.h:116-261, sdo.cpp:373-451, objdict.h:293-522, objdict.cpp:43-75, 333-480, pdo.cpp:86-383, node.cpp:39-215, emcy.cpp:53-143, motor.cpp:7-547, handle_layer.cpp:59-170, can_layer.h, bcm_sync.h:46-137, master_plugin.cpp:13-111, timer.h, ros_chain.cpp:73-279, 404-643, robot_layer.cpp:106-246 | every function as a program over the operations that other threads notice: mutexes, entering, leaving and calling lists of listeners; branches are free choices and every function may end early anywhere, so the programs do more than the code; values and times are left out |
| `LockModel.var`, `Access*` | the members cited at `LockModel.var` | the same programs with reads and writes of shared data (`Rd`, `Wr`: any number of accesses, or none); a race is a state in which two threads are about to use the same data, one of them to write it |
| `BusModel` | node.cpp:115-121, 177, sdo.cpp:373-396, emcy.cpp:43-70, pdo.cpp:228, 298-324, dispatcher.h:104-109 | the listeners of the nodes of a chain, put together from `Node*`, `SdoChan*`, `Emcy*` and `Pdo*`; other threads of the master are arbitrary functions on a node; the failing assertion of node.cpp:119 is undefined behaviour of the model |
| `Tool*` | bcm_sync.cpp:5-56, sync_node.cpp:76-89, canbcm.cpp:21-38, bcm.h:22-99, candump.cpp:13-37 | arguments and parameters up to the construction of the SYNC layer and to the message for the kernel; `atoi` of values that are no int is undefined behaviour |
| `Relay*` | socketcan_to_topic.cpp:34-117, topic_to_socketcan.cpp:48-74, socketcan_bridge_node.cpp:37-72, string.h:34-40 | the bridge nodes, put together from `SocketCanModel`, `FilterModel` and `BridgeModel`; ROS queues, which may drop messages, and time stamps are not modelled |
| `Ini*` | the call of boost::property_tree::read_ini at objdict.cpp:283, and fromFile from the text on | Boost's parser is not in /repo; modelled as known from Boost 1.58 to 1.74 (ini_parser.hpp) with the C locale; values in front of the first section are left out as objdict.cpp does not use them |
| `Boot*` | objdict.cpp:43-56, 392-419, canopen.h:57-63, node.cpp:188-191 | init_all with the SDO client and the server of the device as delegates; the order of the map is arbitrary; writes of PDO buffers do not fail |
| `StopModel`, `StopBusModel` | ros_chain.cpp:73-92, motor.cpp:379-384, 414-437, 518-533, node.cpp:159-164 | one drive followed through the events of `LayerModel`; the write pass of a halted motor down to the frame, put together from `MotorModel`, `CycleModel` and `PdoModel`; no service switches state or mode meanwhile |
| `ReinitModel` | node.cpp:44-54, 176-209, objdict.cpp:67-75, 392-426 | what the actions of `NodeModel.handle_init`/`handle_recover` do to the storage and to the objects of the device; the effects of Reset_Com on the device and of `PDOMapper::init` are parameters |
| `PdoBootSpec`, `PdoCycleSpec` | node.cpp:44-54, 176-191, pdo.cpp:175-323 | histories of a node: set-ups with any outcome, resets of the storage with the heartbeat interval written after them (canopen.h:255), received frames, cycles, accesses; nothing new is modelled, the steps are those of `PdoModel` |

## What is not modelled

* Sockets and the kernel's CAN stack beyond the frames exchanged with them and
  the results of system calls; boost::asio scheduling and strands; logging.
* Memory allocation failure, exceptions that are no `std::exception`,
  destruction order at process exit.
* ROS transport (including the diagnostic updater), plugin loading, URDF, the joint limits
  and filter libraries, muParser's expression grammar (expressions are
  arbitrary functions of their variables).
* Texts of floating point numbers (a parameter of the model). The INI syntax of
  EDS files is Boost's and modelled from its known behaviour (`Ini*`, C111); C75
  and C76 start from the property tree.
* What a data race does. C106 shows which data are free of races; where a race
  is found, and in models that split an access into steps, memory is
  sequentially consistent.
* The `main` functions of the nodes and of `candump` (the line it prints is
  modelled), `atof` of `canbcm`, `setup_chain`/`setup_nodes` except for the
  parts listed above.
* Motor modes with 64 bit targets (none exists in the code).

## Plan per property

| Property | What is modelled | How it is proved |
|---|---|---|
| C01-C03 | `Can*`: conversions of frames and text | round trip over digit lists, case analysis |
| C04-C06 | `Filter*` | bitwise extensionality, order reasoning, induction over frames |
| C07 | `Reader*`: BufferedReader as state machine | refinement to an abstract queue (longest suffix) |
| C08-C09 | `Dispatcher*`: listener lists with guards, dummy bus | invariant over histories; refinement to "set of live listeners" |
| C10-C12 | `SocketCan*`: readFrame/enqueue, masks, driver state | bitwise reasoning; invariant over histories |
| C13 | `Bridge*` | round trip, case analysis |
| C14-C18 | `Layer*`: status, layer, group, stack as an inductive tree with arbitrary handler outcomes | structural induction over trees |
| C19-C22, C25 | `Storage*` | invariant over access histories, refinement to "value known" |
| C23-C24 | `Key*` | round trip over digit lists |
| C26-C32, C67 | `Sdo*`: requests/responses byte by byte, client loop over arbitrary inputs, reference server | induction over segments; invariant over responses |
| C33-C38, C68-C69 | `Pdo*`, `Route*`: buffers, packing, timeouts, mapping configuration, delegates | induction over mappings and histories |
| C39-C42, C70, C74 | `Node*`: NMT state machine with timed wait as interleaving of two threads | invariant over histories |
| C43 | `Emcy*` | invariant over histories |
| C44-C46 | `Sync*` | invariant over histories, simulation by cycle numbers |
| C47-C54, C56 | `Motor*`: status word decode, transition table against a CiA 402 reference drive, handleWrite, targets; doubles as `SpecFloat` | finite computation lifted by bit lemmas; invariant over histories |
| C49 | `Enable*`: enabling thread, cyclic writes and a reference drive interleaved | invariant, well-founded measure for progress |
| C55 | `Pos*`: handshake with a reference drive | invariant, induction over cycles |
| C57, C59 | `Mode*`: threads interleaved at every access to shared members | invariants over schedules |
| C58 | `Homing*` | induction over status sequences |
| C60-C62, C71-C73 | `Chain*` | invariant over histories, structural induction over parameters |
| C63-C65 | `Robot*`, `Handle*` | induction over controllers and joints |
| C66 | `Unit*`: IEEE doubles (`SpecFloat`) for the refutations, exact rational numbers for the positive theorems | induction over argument lists, field arithmetic |
| C75-C76 | `Eds*` | invariant "dictionary covers the objects read so far", uniqueness of numerals |
| C77 | `Text*` | uses C19-C24 and C75 |
| C78-C79 | `Life*`: calling thread, driver thread and failing users interleaved | invariants checked on the finite part of the state by computation, lifted to all runs; ranking for termination under fairness |
| C80 | `Remote*`: storage cell, SDO client and server in one state | invariant "held value = object of the device" over all histories, from the theorems of C19-C21, C26-C27, C77 |
| C81 | `Timer*`: clock, timer, queue of completions, with the chain of `Chain*` | invariants over all histories: beats * period <= time; one pending wait between restart and stop |
| C82 | `Race*`: atomic state and two program counters | invariants by case analysis on both program counters, lifted to all interleavings |
| C83 | `Ctrl*`: layer with program counter of the loop and trace of marks | trace invariant: each mark well placed with respect to the marks before it |
| C84 | `Setup*`: parameters -> nodes, as partial functions | equivalence with a declarative description (`describes`), using C62 for merged parameters |
| C85 | `SdoChan*`: client, reader and bus as one transition system with a trace | simulation by `transfer_loop` for the calls; counting invariant (received = taken + buffered <= requests) for freshness; lag by induction over the number of calls |
| C86 | `PdoSetup*`: what a dictionary describes (`described`, `pdo_mapping`, `pdo_id`), no function of the model used | Hoare-style invariant over the set-up monad: parameters stay plain, objects already connected keep their buffers; then C34/C36 apply |
| C87, C88 | `Drive*`: program counter of the handler and events of other threads | induction over the events with what was seen as ghost state, reusing the invariants of C49-C55 |
| C89, C90 | `Drive*` | exact characterisation of a cycle after any history |
| C91 | `Diag*`: handlers as lists of actions, trees of layers | flattening to the actions that take effect; `says`, `gives` are inductive relations independent of it |
| C92 | `Diag*`, with `Node*`, `Emcy*`, `Drive*` | case analysis over who says what, from C91 |
| C93 | `Service*`: a chain of devices, each with dictionary, storage and the objects it holds | frame property by cases; values by an invariant over histories (cells and objects of the right size), composing C77 and C80 |
| C94, C95 | `Joint*`: a handle with its variables, histories of events; the specification talks about the answers of the device in the history | invariant relating getters to the latest answers; filters by simulation of a fresh filter |
| C96, C97 | `Assembly*`: parameters to a build (stack and groups), a build to a tree of `Layer*` | induction over the list of nodes; orders by the heights of the layers, composed with C15-C17 |
| C98 | `Settings*`: settings by path, texts of numbers | nested parameters as a relation, grammar of numbers, induction over paths and texts |
| C99 | `ExtSync*`: reads that wait for messages of another master | invariant "in phase, or late by at most this much" over cycles |
| C100 | `Threaded*`: driver with its own thread | invariant over all interleavings, checked on the finite part of the state; rank for the end of shutdown |
| C101 | `SocketCanModel.translateError`, `ErrorTextProps` | descriptions decoded part by part, all combinations of seven bits |
| C102 | `Pub*` on `Storage*` | each object's data is the outcome of a history of accesses (C19-C21), induction over the steps of a cycle |
| C103, C104 | `Cycle*`: from a command to a frame and from a frame to a joint | composition of C35, C51, C54, C95 and of C34, C94; rounding of doubles from `JointRoundProofs` |
| C105 | `Lock*`: all mutexes of the stack | a rank for every mutex, rising along each nesting (`ordered`, for every run of every entry point); hence no cycle of waits. The listeners called under the dispatcher are part of the check. Deadlocks as concrete schedules, extended to any other threads by `knot` |
| C106 | `Access*`: accesses to shared data | a guard for every piece of data, checked on every run of every entry point and of every listener (`guarded`); mutexes have one holder (also those of objects under construction, by the distinctness of objects); races as concrete schedules |
| C107 | `Bus*`: several nodes on one bus | sets of identifiers of different devices are disjoint; simulation by induction over the history |
| C108, C109 | `Tool*`: command line tools and SYNC node | induction over the argument list; hexadecimal digits are separated by characters that are none (injectivity), C01-C03 for the texts |
| C110 | `Relay*`: histories of a bridge node | induction over the history with the per-frame facts of C04, C10, C12, C13; two bridges composed through the kernel frames |
| C111 | `Ini*`: text of EDS files | grammar of lines as an inductive relation, equivalent to the parser; tree of sections by induction over the lines; composed with C75 |
| C112 | `Boot*`: configured values from the text to the device | composition of C111, C76, C25 and C80; every dictionary read is filed (induction over the reader), so entries are pairwise at different objects |
| C113 | `Stop*`: drives when a layer fails | the handlers of each layer of a tree in a failing pass by induction over the tree (read, halt, write), then induction over the later calls with the state bits of C51 |
| C114 | `Reinit*`: initialising again and recovering | the cells after `reset` hold the default or nothing, so the initialisation lemma of C112 applies to every storage and device |
| C112_sent | `BootPdoProps`: configured values of objects in a transmit PDO | the initialisations as a history of C35, then induction over the abstract machine of that property |
| C86, C68 (histories) | `PdoBoot*`, `PdoUsed*`, `PdoHeld*`, `PdoCycle*` | induction over the history; three Hoare-style passes over the set-up monad that also hold if it throws: types and sizes kept, delegates below the next free buffer, buffers of the PDOs kept exist |

Every property could be expressed in a model; none has status `not_applicable`.

## Findings

Deviations of the code from the properties or from the standards, found while
modelling. Those with a theorem name are proved (`*_refuted`), the others were
noticed while reading and are visible in the models.

**CAN frames, filters, driver, bridge (C01-C13).** An extended identifier below
0x800 loses its extended flag in text form. A payload that is no hexadecimal
text yields a valid frame without data. Textual ranges of extended identifiers
pass nothing. Error frames keep the extended and remote flags of the frame
received before. Frames marked as error are sent as data frames. `enqueue` with
dlc above 8 reads beyond the data. Interface names of 16 or more characters
overflow `ifr_name`. `translateError` has no text for missing acknowledges and
bus errors. The bridge truncates identifiers of 2^29 and more.

**Layers and storage (C14-C25).** A failed write stays in the cache as if it
was confirmed; a failed first read leaves zeros (C21). `$NODEID` configured
values are written as the 16 raw bytes of a C++ struct; a `$NODEID` default
suppresses the configured value; a failed write of the initialisation is not
repeated; after a communication reset application objects are assumed to have
their default values (C25).

**SDO (C26-C32, C67).** An unanswered last request counts as success. Empty
writes always throw although the server stores four zeros. The size field is
decoded from bytes 0 and 3 instead of a 32 bit number, so long strings are
truncated or never complete. Reading a string from a server that does not
indicate the size throws. An expedited response without size, or an empty
segment, into a string is undefined behaviour. Empty segments keep a read going
for ever. Any abort frame ends the transfer. Command codes 5 to 7 are ignored.
The reader is not flushed when a transfer starts.

**PDO (C33-C38, C68-C69).** A missing PDO is reported in every cycle beyond the
limit instead of once. Short frames deliver wrong bytes to later objects. A
value written by SDO to a receive-mapped object shadows the values received.
After an uncached read, a cached write may be skipped although the PDO holds
another value. Objects never written and gaps are sent as uninitialised bytes.
Changes of communication parameters only are not noticed (pdo.cpp:107 passes
the mapping index). The transmission type is set while the PDO is enabled. 255
communication sub-objects give an endless loop. A disabled PDO leaves its
objects connected to destroyed buffers. Mapping one direction resets the other
one to SDO; mapping both leaves writes with SDO. Mapped strings always throw.

**Nodes (C39-C42, C70, C74).** Unknown state bytes leave a node registered. A
bare `stop` unregisters while the state stays Operational. A heartbeat during a
reset may end it too early. `start` of an operational node, the second of two
unsupervised resets, and `stop` report success without confirmation. `recover`
ignores a failed start. A failed write of the heartbeat time in shutdown skips
the stop command. If object 1017 has no default value the boot-up message makes
the receiving thread read it by SDO, which fails with an uncaught exception. The
boot-up message does not start supervision if the default interval is 0. The
end of a reset changes the state without telling listeners. An assertion aborts
debug builds on heartbeat frames of other lengths.

**EMCY, sync (C43-C46).** A register with only bit 5 set counts as no error. The
error code is only logged. A message arriving while the initialisation clears
errors is lost. The invalid bit of object 1014 is ignored. The sync counter
advances in cycles without message and its first message carries 2. Missed
cycles are followed by bursts at half period. BCMsync runs when some instead of
all nodes are started; ignores commands to all nodes if a list is monitored;
keeps a stale running flag after a restart; accepts overflows of 1 and of
241 to 255; `BCMsocket::init` leaks the previous socket.

**Motors (C47-C59).** Quick stop from Ready To Switch On and Switched On leads
to Switch On Disabled. A fault reset with the bit already set gives no edge.
Mode bits stay in the control word while the drive is not enabled. Initialising
an enabled drive reports success and then switches it off. A recover in the
fault reaction with the bit set gets stuck. Profiled position loses a target if
a low phase of the acknowledge bit is missed. If object 6502 is missing,
mode queries throw. `mode_id_`, `target_state_` and `start_fault_reset_` are
uninitialised. Switching to the active mode succeeds in every state and drops
its target; a failed enabling leaves the new mode selected. A halt before the
target state is set, or while the mode display is awaited, is lost or undone.
Homing with method 0, or with a stale status, succeeds at once; the start bit
stays in the control word if the drive is not enabled.

**Chain (C60-C62, C71-C73).** A warning during initialisation makes the service
report failure although the chain is ready. A failed initialisation before the
loop thread began leaves a loop that the next initialisation duplicates.
Negative overflows and intervals of 65536 and more are accepted and wrap.
Negative update intervals are accepted. `defaults` that is no structure is
undefined behaviour. A halted sync node stack whose layers report nothing stays
halted. Node ids are not validated (0, above 127, duplicates). Exceptions of
publishers make a write report an error without halting.

**Joints and controllers (C63-C66).** `doSwitch` stops `it->handle` instead of
`stop_it->handle` (robot_layer.cpp:232), so the other joints of the failed
controller keep running. Controllers stay registered for ever with the modes of
their first start; a rejected switch leaves earlier controllers of the request
registered. After a re-initialisation of the motor the handle forwards commands
to a motor without mode. `avg` divides by one too many; `norm` does not return
for infinite or large values and may return `max` by rounding.

**EDS and text access (C75-C77).** Compact arrays lose their last element and
their individual values and names. Sub-objects after a gap of sub-indexes are
missing. Object types other than variable, array, record and domain, and domains
without data type, reject the whole file. Values of strings are stored as the 24
raw bytes of a C++ vector; values of octet strings are dropped if they are valid
and kept as raw bytes if not. Numbers out of range wrap silently. Numbers of the
device information in hexadecimal are read as 0, including the numbers of PDOs.
8 bit integers are shown as characters by the object services; strings are read
beyond their end; the hexadecimal formatting of octet strings is never used.

**CAN layer (C78-C79).** `setNotReady` looks at the socket before it takes the
lock of the state: a transmission that fails while the layer is shut down may
set the state to open after the driver's thread has ended; then no
initialisation succeeds any more. `run` resets the io_service after announcing
`open`: if a slow start makes the initialisation time out, the stop of the
shutdown that follows may be cancelled and the shutdown never returns.

**Heartbeat of the chain (C81).** `Timer::handler` stops for good as soon as one
frame is not sent; recovering the chain does not restart it. `Timer::stop` does not
affect a completion that is queued already: the handler runs afterwards and
schedules the next wait, so the heartbeat survives a shutdown as long as frames
can be sent. Without configured heartbeat `handle_init` reads the period that was
never set.

**Layer states (C82).** `Layer::halt` called by the control loop tests and sets
the state in separate steps. If a shutdown completes in between, the layer is left
in error; the next `init` finds it not off and skips it silently. If the halt
happens between the handler of `recover` and the last assignment, the layer is
ready although it was halted last. `read` and `write` read the state twice, so a
handler may be called with `Off`.

**Controller manager (C83).** `handleShutdown` destroys the manager while the
control loop may be inside `cm_->update` (or between the test of `cm_` and its
use), as the chain joins the loop only afterwards. The reset flag is consumed
before the update: if the update throws, controllers are not reset afterwards. A
negative `update_ms` passes `setup_sync` and becomes a negative control period.

**Set-up of nodes (C84).** `id` is passed to a `uint8_t` unchecked (257 becomes 1,
0 is accepted), two nodes may have the same id, and a `name` given in the defaults
is used for all nodes, of which the services reach only the first.

**Stale SDO responses (C85).** `transmitAndWait` enables the reader without
clearing its buffer of one frame. A response that arrives after the timeout but
before `ScopedEnabler` is left stays there and is taken for the answer of the next
call. If that call accesses the same object it succeeds with old data, and when
its own answer comes before the call ends it takes its place: all later reads are
one answer behind.

**Shutdown with an unread heartbeat interval (C42).** If the interval (0x1017) was
not read yet and the device does not answer, the exception leaves the shutdown
before the stop command and the removal of the NMT listener; the node keeps its
state (`C42_shutdown_unread_refuted`).

**Motor handlers (C87-C89).** `handleShutdown` ends silently when a halt
intervenes: `handleHalt` changes the target state, the loop of `switchState` ends
when that one is reached and returns false without a message, and the result is
ignored. A drive that goes into fault is not
reported by `readState`: the control loop continues unless an emergency message
arrives. After a successful `handleInit` the drive need not be enabled any more.

**Diagnostics (C92).** Layers are asked only past initialisation. A node that is
being initialised or shut down is published as OK with an empty message as soon as
its state is known. The same holds, for good, after the shutdown of a node with
heartbeat that cannot be reached: the write of 0 to object 0x1017 throws, so
`switchState(Unknown)` is not reached. The status of the chain does not contain
nodes, motors or emergency handlers (all are groups without diagnostics), and a
chain halted because of an error counts as OK. `Logger::log` does not take the
mutex `report_diagnostics` takes (not modelled).

**Object services (C93).** `set_object` reports success for a device that does not
answer (from C80), writes 0 for a text that is no number, and `get_object` returns
one byte objects as a raw character (from C77).

- **C94** The variables of a joint's conversion expressions are created when the expression is evaluated for the first time, but are read from the device before (handle_layer.cpp:138-145). So the first evaluation, in the first initialisation, uses doubles that were allocated and never written; the position after it is arbitrary, and a stateful filter keeps it. (`C94_first_refuted`)
- **C94** The result of `ObjectVariables::sync` is ignored: an object that cannot be read any more keeps its last value for ever and nothing is reported. (`C94_stale_refuted`)

- **C97** Nothing checks that joints are different. With two nodes for one joint (for example `joint` in the defaults) both motors are enabled, but `handles_.insert` (robot_layer.cpp:28) keeps the first handle: the second motor cannot be commanded, has no limits and is not shown. (`C97_refuted`)
- **C98** `boost::lexical_cast<unsigned int>` accepts a minus sign and wraps: `state_switch_timeout: -1` becomes 4294967295 seconds, so a drive that does not follow blocks the initialisation for good instead of the set-up being refused (motor.h:297-299). The number for `switching_state` is not checked to be a state either. (`C98_sign_refuted`)
- **C99** A read of `ExternalSyncLayer` that finds a SYNC message waiting sleeps half a period from its own start instead of half a period from the message (master_plugin.cpp:101-103), so a late caller stays late until its slack has used up the delay; with no slack it stays out of phase for good. With a period of 1 ms `half_step_` is 0 (`period_ms_/2`). A SYNC master that falls silent is not reported: reads end after one period without a warning. (`C99_late_refuted`, `C99_one_ms_refuted`, `C99_silence`)
- **C100** `ThreadedInterface::init` tests only whether its thread exists (threading.h:64): after a failed transmission or reception the thread goes on waiting in `io_service::run`, the state is `open`, and every further `init` returns false until somebody calls `shutdown` (`C100_again_refuted`). A `shutdown` that stops the service before `run` has reset it (asio_base.h:97-98) waits forever for the thread (`C100_hangs_refuted`); a transmission failing during `shutdown` can leave the driver `open` without thread, and no later `init` succeeds (`C100_left_open_refuted`).
- **C101** `translateError` has no text for `CAN_ERR_ACK` and `CAN_ERR_BUSERROR` (socketcan.h:92-128): the diagnostics of a bus that failed with a bus error, which is fatal by default, have no `internal_error_desc`, and together with other conditions these two are left out. (`C101_refuted`)
- **C102** The loop over `publishers_` (ros_chain.cpp:204-209) has no handler of its own: the exception of one object ends the cycle's publishing, so all objects behind it in the list are never published while it fails; a write-only object is accepted and blocks them for good (`C102_starved_refuted`). As a failed first read leaves the object valid (C21), a device that never answers is published as 0 from the second cycle on, without any error (`C102_invented_refuted`).
- **C105** `BufferedReader::listen` creates its listener while it holds the mutex of the reader (reader.h:80-89); the receiving thread takes the mutex of the dispatcher first and that of the reader in the listener (dispatcher.h:104-109, reader.h:29-30). A SYNC that arrives while a chain with an external SYNC master is initialised a second time, or an SDO answer (of a late or a foreign transfer) that arrives during the second `sdo_.init()` of `Node::handleInit` (node.cpp:192), stops both threads for good (`C105_sync_refuted`, `C105_sdo_refuted`). On a first initialisation a heartbeat and a `get_object` for 1017 complete the circle (`C105_object_refuted`). `BCMsync` has the same inversion in `handleInit`, `handleShutdown` and `handleRecover` (bcm_sync.h:46-47, 95-137; `C105_bcm_refuted`). All other functions follow one order (`C105_waits_partial`). `handleNMT` reads the object 1017 under the mutex of the dispatcher (node.cpp:115-121): while a thread reads or writes that object by SDO, a heartbeat keeps the answer away until the transfer times out (`C105_answer_refuted`).
- **C106** Six pieces of data are used by several threads without a common mutex. `Node::state_` is read under `mutex` (getState, node.cpp:39-42) and written under `cond_mutex` by the thread of the driver (handleNMT, switchState, node.cpp:94-121) and without a mutex in handleShutdown (node.cpp:214) (`C106_node_refuted`). `SDOClient::init` resets the client without its mutex (sdo.cpp:373-396): a service that reads an object while a node is initialised again works on a client that is being reset; `current_entry` may become null under it (sdo.cpp:429) (`C106_sdo_refuted`). `Buffer::clean` (canopen.h:80, pdo.cpp:143) clears the dirty flag without the mutex of the buffer after the delegates were set, so a value written meanwhile may never be sent (`C106_dirty_refuted`). `AsioDriver::shutdown_internal` closes the socket without a mutex while other threads send or receive (asio_base.h:24-30) (`C106_socket_refuted`). `enable_limits_` is a plain bool that the controller manager's switch and the loop share (handle_layer.h:132) (`C106_limits_refuted`). `cm_.reset()` in handleShutdown runs before the loop is stopped (ros_chain.cpp:210-220), cf. C83 (`C106_manager_refuted`).
* **C107** `Node::handleNMT` asserts that a heartbeat has one byte (node.cpp:119). In builds without `NDEBUG` (the default of catkin) one frame with the identifier of a heartbeat and another length ends the master's process.
* **C108** `bcm_sync` does not check its period: a text that is no number is taken as 0, 65536 ms and more are cut to 16 bits (bcm_sync.cpp:13, 52). In sync_node.cpp:83-87 `getParam("ignored_nodes", nodes)` replaces the vector that already has the node's own heartbeat in it, so with `ignored_nodes` set the SYNC node takes its own heartbeat for that of a device: it is reported among the known nodes and counts as started after a start of all nodes (`C108_own_refuted`).
* **C109** `canbcm` never checks the frames it parsed (canbcm.cpp:23-29): an argument without `#` is sent as identifier 4095, data with an odd number of digits as an empty frame. `BCMsocket::Message::setHeader` drops the remote flag (bcm.h:42-44), so a remote frame is sent as a data frame.
* **C110** `SocketCANDriver` decodes every frame into the same member `input_` (socketcan.h:238-257) and copies only `can_dlc` bytes; for error frames it does not assign the flags. `received_messages` therefore shows bytes of earlier frames behind `dlc`, and error reports with the extended and remote flags of the frame before. A published error report that is relayed to `sent_messages` of another bridge is put on that bus as a data frame whose identifier is the error class, as `msgCallback` does not look at `is_error` and `enqueue` drops it (topic_to_socketcan.cpp:48-74, socketcan.h:213-217).
* **C112** A configured value that equals the `DefaultValue` of the EDS file is never written (objdict.cpp:50): a device that holds another value, because it was stored in its non-volatile memory, say, keeps it (`C112_default_refuted`).
* **C112** The initialisation of a device that does not answer SDO requests at all succeeds as long as the configured values have at most four bytes (`C112_silent_refuted`): the cause is the one of `C80_silent_refuted`.
* **C113** If writing the target of the selected mode throws (the target is not mapped and the device refuses it or does not answer), `Motor402::handleWrite` is left before the control word is written (motor.cpp:414-437, motor.h:191-200). The error halts the chain, but the quick stop that `handleHalt` puts into the control word is not sent as long as the target is refused: the drive runs on (`C113_refused_refuted`).
* **C114** `Node::handleRecover` only sends the NMT command Start (node.cpp:202-209). A device that rebooted (power failure, watchdog) is recovered without an error, although its configured values and PDO parameters are gone; the driver must be shut down and initialised to write them again (`C114_recover_refuted`).
* **C114** Initialising a node again does not undo what a user wrote to an object whose configured value is its default: `reset` makes the storage believe that the device holds the default (objdict.cpp:67-75), NMT Reset_Com does not touch application objects, and the write is skipped (objdict.cpp:50). `get_object` then shows the default if cached values are allowed (`C114_default_refuted`).
* **C68** `PDOMapper::init` clears the PDOs of the earlier set-up before it accesses the device (pdo.cpp:178, 191). If the device does not answer any more, the set-up ends with an exception, and the objects of the earlier PDOs keep delegates into the destroyed buffers; the next access, for example by the service that reads an object, is undefined (`C68_again_refuted`). The same happens in the first set-up if mapping fails after the first object of a PDO (`C68_failed_refuted`).

* **C77** (`C77_word_refuted`) A text that begins with a letter is accepted as value of every integer object; 0 is
  written and success is reported (`strtol` without end pointer, objdict.cpp:110-136).
* **C23** (`C23_parse_wide`) Object keys with too many digits are not refused but name another object
  (`sscanf` with `%hx`, objdict.cpp:31-36): `16041sub101` is `6041sub1`.

## Testing the theorems

`/verif/seeded/LOG.jsonl` lists the seeded faults: definitions of the models were
edited in a scratch copy as a realistic bug would change them, the development
was rebuilt, and the theorems that failed were recorded. Theorems that still
proved although their claim had become false were tightened.

## Theorems and their assumptions

Under each of the following theorems `Print Assumptions` prints `Closed under the
global context`: they use no axiom.

| Property | Status | Theorems |
|---|---|---|
| C01 | partial | `C01_frame_text_round_trip_refuted`, `C01_frame_text_round_trip_partial`, `C01_text_defined`, `C01_short_extended_becomes_standard`, `C01_headers`, `C01_text_shape` |
| C02 | proved | `C02_hex_round_trip`, `C02_hex_decode_strict`, `C02_hex_decode_padded` |
| C03 | partial | `C03_malformed_text_rejected_refuted`, `C03_malformed_text_partial`, `C03_wellformed_text_accepted` |
| C04 | proved | `C04_mask_filter`, `C04_mask_filter_text`, `C04_bare_filter_text`, `C04_number_filter` |
| C05 | partial | `C05_range_filter`, `C05_range_text_partial`, `C05_range_text_standard_partial`, `C05_range_text_extended_refuted` |
| C06 | proved | `C06_filtered_listener` |
| C07 | proved | `C07_reader_is_bounded_fifo`, `C07_arrival_order`, `C07_limit_respected`, `C07_unlimited_is_lossless`, `C07_newest_kept`, `C07_drops_oldest_only_when_full` |
| C08 | proved | `C08_dispatch_delivery` |
| C09 | proved | `C09_bus_send`, `C09_filtered_dispatch` |
| C10 | partial | `C10_frame_codec`, `C10_send_defined`, `C10_no_history_partial`, `C10_no_history_refuted`, `C10_error_frames_sent_as_data`, `C10_written`, `C10_read` |
| C11 | proved | `C11_masks`, `C11_busoff_always_fatal`, `C11_fatal_is_reported` |
| C12 | proved | `C12_fatal_error_stops`, `C12_other_frames_change_nothing`, `C12_listeners_know_the_state`, `C12_announcements_are_news`, `C12_not_ready_sends_nothing`, `C12_ready_sends`, `C12_failed_write_stops`, `C12_init`, `C12_unused` |
| C13 | partial | `C13_conversion_round_trip`, `C13_published`, `C13_sent_partial`, `C13_sent_refuted`, `C13_sent_any_id`, `C13_relay` |
| C14 | proved | `C14_status_accumulates`, `C14_status_of_a_call` |
| C15 | proved | `C15_lifecycle`, `C15_nothing_starts_after_failure`, `C15_shutdown`, `C15_halt`, `C15_recover`, `C15_otherwise_nothing` |
| C16 | proved | `C16_init_all_or_nothing`, `C16_layers_move_together` |
| C17 | proved | `C17_order` |
| C18 | proved | `C18_cyclic_failure_halts` |
| C19 | proved | `C19_cached_read_any`, `C19_defined`, `C19_cached_read`, `C19_uncached_read`, `C19_constant_read_once` |
| C20 | proved | `C20_cached_write_any`, `C20_held_is_known`, `C20_cached_write`, `C20_plain_write`, `C20_held_after_transfer`, `C20_equality`, `C20_real_equality`, `C20_reset_other` |
| C21 | partial | `C21_failed_write_refuted`, `C21_failed_read_refuted`, `C21_failures_reported_partial`, `C21_repaired_partial` |
| C22 | proved | `C22_write_refused_any`, `C22_not_writable_never_written`, `C22_not_readable_never_read`, `C22_write_refused`, `C22_access_types` |
| C23 | proved | `C23_round_trip`, `C23_distinct_hashes`, `C23_distinct_texts`, `C23_fields`, `C23_parse_sub`, `C23_parse_index`, `C23_parse_wide`, `C23_parse_total` |
| C24 | proved | `C24_too_large`, `C24_nodeid_plus_number`, `C24_number_plus_nodeid`, `C24_bare_nodeid`, `C24_plain_number` |
| C25 | partial | `C25_init_writes_partial`, `C25_failures_and_sources`, `C25_nodeid_value_refuted`, `C25_nodeid_default_refuted`, `C25_retry_refuted` |
| C26 | proved | `C26_delivered` |
| C27 | partial | `C27_exact_partial`, `C27_truncated_refuted`, `C27_long_refuted`, `C27_unsized_refuted` |
| C28 | partial | `C28_unanswered_refuted`, `C28_acknowledged_partial`, `C28_requests_carry_data` |
| C29 | partial | `C29_number`, `C29_string_partial`, `C29_decoded`, `C29_string_refuted` |
| C30 | partial | `C30_write`, `C30_read_number`, `C30_read_string_partial`, `C30_read_string_refuted` |
| C31 | partial | `C31_write`, `C31_first_write_partial`, `C31_read`, `C31_read_bound_partial`, `C31_read_bound_refuted` |
| C32 | proved | `C32_server_abort_write`, `C32_server_abort_read`, `C32_error_write`, `C32_error_read`, `C32_timeout_write`, `C32_timeout_read` |
| C33 | partial | `C33_transmit_content`, `C33_receive_content_partial`, `C33_round_trip`, `C33_short_frame_refuted` |
| C34 | partial | `C34_reported_changed`, `C34_last_received_partial`, `C34_reads_defined`, `C34_own_write_refuted`, `C34_size_mismatch` |
| C35 | partial | `C35_transmission_partial`, `C35_defined`, `C35_newest_value_refuted`, `C35_uninitialised_refuted` |
| C36 | partial | `C36_reported_partial`, `C36_asynchronous`, `C36_requests`, `C36_once_refuted` |
| C37 | proved | `C37_cob_id_decoded`, `C37_cob_id_reserved`, `C37_mapping_decoded`, `C37_mapping_any` |
| C38 | partial | `C38_protocol_partial`, `C38_unconfigured`, `C38_communication_only_refuted`, `C38_transmission_type_refuted` |
| C39 | partial | `C39_membership_partial`, `C39_other_state_refuted`, `C39_stop_refuted`, `C39_reset_race_refuted` |
| C40 | partial | `C40_supervised`, `C40_unsupervised`, `C40_configured`, `C40_enabled_late_refuted` |
| C41 | partial | `C41_success_confirmed_partial`, `C41_failure_justified`, `C41_already_there_refuted`, `C41_sent`, `C41_reset_twice_refuted`, `C41_stop_refuted` |
| C42 | partial | `C42_order`, `C42_reported`, `C42_recover_refuted`, `C42_recover_partial`, `C42_shutdown_unread_refuted`, `C42_shutdown_refuted`, `C42_shutdown_partial` |
| C43 | partial | `C43_last_message_partial`, `C43_profile_bit_refuted`, `C43_code_refuted`, `C43_unknown_is_error`, `C43_cleared`, `C43_init_checked`, `C43_race_refuted`, `C43_diag_level`, `C43_diag_list`, `C43_listener`, `C43_disabled_refuted`, `C43_logged`, `C43_init_succeeds` |
| C44 | partial | `C44_accepted`, `C44_counter`, `C44_in_range`, `C44_successive_partial`, `C44_no_counter`, `C44_idle_refuted`, `C44_first_refuted` |
| C45 | proved | `C45_sent_iff`, `C45_only_in_write`, `C45_schedule`, `C45_spacing` |
| C46 | partial | `C46_recovered`, `C46_running_partial`, `C46_flag`, `C46_halt`, `C46_frames`, `C46_interval`, `C46_all_started_refuted`, `C46_broadcast_refuted`, `C46_start_all_refuted`, `C46_recover_refuted`, `C46_overflow_refuted`, `C46_identifier`, `C46_shutdown`, `C46_failed`, `C46_no_counter`, `C46_unheard` |
| C47 | proved | `C47_decoded`, `C47_unknown`, `C47_dont_care`, `C47_unique` |
| C48 | partial | `C48_commanded_partial`, `C48_quick_stop_refuted`, `C48_stale_reset_refuted`, `C48_other_bits`, `C48_automatic` |
| C49 | partial | `C49_reached_partial`, `C49_success`, `C49_no_quick_stop`, `C49_never_quick_stop`, `C49_enabled_refuted`, `C49_fault_reaction_refuted`, `C49_booting_refuted` |
| C50 | proved | `C50_refused`, `C50_nothing_changes`, `C50_same_state`, `C50_enabling` |
| C51 | partial | `C51_halt_bit`, `C51_executes`, `C51_homing_executes`, `C51_state_bits`, `C51_mode_bits_partial`, `C51_forward_bits`, `C51_standard_bits`, `C51_homing_bits`, `C51_disabled_refuted` |
| C52 | proved | `C52_first_word`, `C52_edge`, `C52_reset_happens`, `C52_init_word` |
| C53 | proved | `C53_accepted`, `C53_unchanged` |
| C54 | proved | `C54_finite`, `C54_every_finite`, `C54_infinite`, `C54_nan`, `C54_object`, `C54_other_modes`, `C54_restart` |
| C55 | partial | `C55_raised`, `C55_written`, `C55_lowered`, `C55_kept`, `C55_bits`, `C55_commanded_partial`, `C55_missed_refuted`, `C55_restart`, `C55_error`, `C55_no_target` |
| C56 | proved | `C56_supported`, `C56_registered`, `C56_init_total`, `C56_no_object`, `C56_defaults` |
| C57 | partial | `C57_success_partial`, `C57_changed`, `C57_in_progress`, `C57_failed_partial`, `C57_thrown_partial`, `C57_same_mode_refuted`, `C57_same_mode_target`, `C57_failed_refuted`, `C57_unsupported`, `C57_no_mode`, `C57_cooperative`, `C57_reenabled` |
| C58 | partial | `C58_success_partial`, `C58_execute_lowered`, `C58_bit_lowered_partial`, `C58_not_before`, `C58_ends`, `C58_error`, `C58_method_zero_refuted`, `C58_stale_refuted`, `C58_fault_refuted`, `C58_completes`, `C58_invalid` |
| C59 | partial | `C59_any_phase`, `C59_quick_stop`, `C59_fault`, `C59_cancels_partial`, `C59_enabling_cancelled`, `C59_mode_switch_cancelled`, `C59_early_refuted`, `C59_mode_switch_refuted`, `C59_late_refuted`, `C59_recover_refuted` |
| C60 | partial | `C60_always_defined`, `C60_init_again`, `C60_init_partial`, `C60_init_success`, `C60_warning_refuted`, `C60_recover_off`, `C60_recover`, `C60_halt`, `C60_shutdown` |
| C61 | partial | `C61_chain_accepts`, `C61_chain_used_partial`, `C61_node_used_partial`, `C61_wrapped_refuted`, `C61_negative` |
| C62 | proved | `C62_own`, `C62_default`, `C62_structures`, `C62_hidden`, `C62_nothing_else` |
| C63 | partial | `C63_accepted_iff`, `C63_one_interface`, `C63_rejected_partial`, `C63_rejected_refuted`, `C63_required_partial`, `C63_stale_refuted` |
| C64 | partial | `C64_unprepared`, `C64_switch_partial`, `C64_silent`, `C64_all_start`, `C64_failing_joint`, `C64_interrupted_refuted` |
| C65 | partial | `C65_forwarded_partial`, `C65_reinit_refuted`, `C65_forwards`, `C65_commands`, `C65_switch`, `C65_failed_switch`, `C65_idle` |
| C66 | partial | `C66_avg_partial`, `C66_avg_mean`, `C66_avg_refuted`, `C66_smooth_undefined`, `C66_smooth`, `C66_smooth_bounded`, `C66_norm_partial`, `C66_norm_inverted`, `C66_norm_refuted`, `C66_norm_rounding_refuted`, `C66_norm_lower`, `C66_norm_id`, `C66_degrees` |
| C67 | partial | `C67_write_partial`, `C67_long_write_refuted`, `C67_empty_write_refuted`, `C67_read_partial` |
| C68 | partial | `C68_freed`, `C68_again_partial`, `C68_again_refuted`, `C68_failed_refuted`, `C68_every_boot_partial`, `C68_cycles`, `C68_no_dangling_partial`, `C68_disabled_pdo_refuted` |
| C69 | partial | `C69_one_direction_partial`, `C69_both_directions_refuted`, `C69_both_at_once_refuted` |
| C70 | partial | `C70_heartbeats_handled_partial`, `C70_no_default_refuted` |
| C71 | partial | `C71_one_loop_partial`, `C71_left_behind_refuted`, `C71_loop_exists`, `C71_shutdown_ends_loops`, `C71_pass` |
| C72 | partial | `C72_heals_partial`, `C72_halted_refuted`, `C72_recovers` |
| C73 | proved | `C73_plain`, `C73_forced` |
| C74 | partial | `C74_told_partial`, `C74_believed_partial`, `C74_reset_refuted` |
| C75 | partial | `C75_filed`, `C75_dictionary_partial`, `C75_compact_partial`, `C75_compact_refuted`, `C75_gap_refuted`, `C75_gaps_partial`, `C75_domain_refuted`, `C75_string_refuted`, `C75_octets_refuted`, `C75_no_octets_refuted`, `C75_range_refuted`, `C75_flag_refused`, `C75_object_refused`, `C75_mapping_flag`, `C75_info_refuted`, `C75_info_partial`, `C75_missing_name` |
| C76 | partial | `C76_overlay_partial`, `C76_unknown`, `C76_unused_refuted` |
| C77 | partial | `C77_write_partial`, `C77_read_partial`, `C77_read_failed_partial`, `C77_read_string_partial`, `C77_write_back_partial`, `C77_nodeid_partial`, `C77_byte_refuted`, `C77_range_refuted`, `C77_word_refuted`, `C77_string_refuted`, `C77_unknown_type` |
| C78 | partial | `C78_started`, `C78_keeps_working`, `C78_stopped_partial`, `C78_left_open_refuted` |
| C79 | partial | `C79_reports_own`, `C79_shutdown_ends_partial`, `C79_no_lost_wakeup`, `C79_timed_out`, `C79_hangs_refuted` |
| C80 | partial | `C80_get`, `C80_set_partial`, `C80_round_trip_partial`, `C80_cached_partial`, `C80_defined`, `C80_read_defined`, `C80_silent_refuted`, `C80_text_partial` |
| C81 | partial | `C81_setup_partial`, `C81_setup_refuted`, `C81_rate`, `C81_unconfigured_refuted`, `C81_regular_partial`, `C81_goes_on_partial`, `C81_start`, `C81_failed_send`, `C81_failed_send_refuted`, `C81_off_silent_partial`, `C81_on_beating_partial`, `C81_stop_refuted` |
| C82 | partial | `C82_settled`, `C82_apart_partial`, `C82_shutdown_refuted`, `C82_recover_refuted`, `C82_called_off_refuted`, `C82_failed`, `C82_succeeded`, `C82_pass`, `C82_services` |
| C83 | partial | `C83_updates_partial`, `C83_shutdown_refuted`, `C83_no_time_lost`, `C83_cycle`, `C83_off`, `C83_services`, `C83_fixed`, `C83_fixed_refuted`, `C83_reset_lost_refuted`, `C83_clock` |
| C84 | partial | `C84_sound`, `C84_complete`, `C84_id_partial`, `C84_id_own`, `C84_lookup_partial`, `C84_lookup_none`, `C84_refuted` |
| C85 | partial | `C85_configured_ids`, `C85_default_ids`, `C85_nodes_apart`, `C85_calls`, `C85_sent`, `C85_taken`, `C85_others`, `C85_fresh_partial`, `C85_stale_refuted`, `C85_fresh_refuted` |
| C86 | proved | `C86_relative_default`, `C86_again`, `C86_boot_again`, `C86_every_boot`, `C86_after_failure`, `C86_history_frames`, `C86_history_cycle`, `C86_history_access`, `C86_receive`, `C86_transmit`, `C86_node`, `C86_reads` |
| C87 | partial | `C87_init`, `C87_errors`, `C87_causes`, `C87_start_bit`, `C87_thrown`, `C87_enabled_refuted` |
| C88 | partial | `C88_recover`, `C88_recover_errors`, `C88_recover_causes`, `C88_shutdown_partial`, `C88_shutdown_refuted`, `C88_recover_homing` |
| C89 | partial | `C89_reports`, `C89_fault_refuted` |
| C90 | proved | `C90_told_apart`, `C90_reports`, `C90_healthy`, `C90_error`, `C90_unread` |
| C91 | proved | `C91_level`, `C91_message`, `C91_values`, `C91_order`, `C91_contributes`, `C91_entries`, `C91_unknown`, `C91_node_told_apart` |
| C92 | partial | `C92_node`, `C92_motor`, `C92_starting_refuted`, `C92_shutdown_refuted`, `C92_chain_partial`, `C92_chain_refuted`, `C92_bus` |
| C93 | partial | `C93_unknown`, `C93_isolation`, `C93_defined_partial`, `C93_get_partial`, `C93_set_partial`, `C93_silent_refuted`, `C93_text_refuted` |
| C94 | partial | `C94_value_partial`, `C94_current_partial`, `C94_filtered_partial`, `C94_untouched`, `C94_forgets`, `C94_init_result`, `C94_first_refuted`, `C94_stale_refuted` |
| C95 | proved | `C95_target`, `C95_idle`, `C95_limited`, `C95_unlimited`, `C95_enforced`, `C95_exact_same`, `C95_exact_near`, `C95_rint`, `C95_default_same`, `C95_default_near` |
| C96 | proved | `C96_composition`, `C96_accepted`, `C96_cycle`, `C96_flow`, `C96_init`, `C96_shutdown` |
| C97 | partial | `C97_lookup`, `C97_own_partial`, `C97_registered`, `C97_refuted` |
| C98 | partial | `C98_lookup`, `C98_names`, `C98_map`, `C98_map_values`, `C98_motor`, `C98_masks`, `C98_sign_refuted`, `C98_number_partial` |
| C99 | partial | `C99_bounded`, `C99_order`, `C99_fresh`, `C99_newest`, `C99_in_phase`, `C99_catch_up`, `C99_silence`, `C99_late_refuted`, `C99_one_ms_refuted` |
| C100 | partial | `C100_started`, `C100_failed`, `C100_one_thread`, `C100_keeps_working`, `C100_stopped_partial`, `C100_left_open_refuted`, `C100_shutdown_ends_partial`, `C100_hangs_refuted`, `C100_init_ends`, `C100_again_refuted` |
| C101 | partial | `C101_conditions`, `C101_ok`, `C101_described_partial`, `C101_refuted` |
| C102 | partial | `C102_defined`, `C102_value`, `C102_cycle`, `C102_silent`, `C102_starved_refuted`, `C102_invented_refuted` |
| C103 | proved | `C103_target`, `C103_position`, `C103_enabled`, `C103_halted`, `C103_trajectory` |
| C104 | proved | `C104_polled`, `C104_shown`, `C104_position`, `C104_loop` |
| C105 | partial | `C105_waits_partial`, `C105_returns_partial`, `C105_sync_refuted`, `C105_sdo_refuted`, `C105_object_refuted`, `C105_bcm_refuted`, `C105_answer_refuted` |
| C106 | partial | `C106_no_races_partial`, `C106_one_holder`, `C106_socket_refuted`, `C106_sdo_refuted`, `C106_dirty_refuted`, `C106_node_refuted`, `C106_limits_refuted`, `C106_manager_refuted` |
| C107 | partial | `C107_isolated`, `C107_one`, `C107_default`, `C107_survives_partial`, `C107_length_refuted` |
| C108 | partial | `C108_tool_partial`, `C108_checked`, `C108_bad_id`, `C108_period_refuted`, `C108_node`, `C108_own_refuted` |
| C109 | partial | `C109_sent_partial`, `C109_remote_refuted`, `C109_unchecked_refuted`, `C109_dump`, `C109_length_refuted` |
| C110 | partial | `C110_published_partial`, `C110_bytes_refuted`, `C110_flags_refuted`, `C110_sent_partial`, `C110_ready`, `C110_not_ready`, `C110_failed`, `C110_error_refuted`, `C110_number_refuted`, `C110_through`, `C110_setup`, `C110_empty` |
| C111 | proved | `C111_sound`, `C111_only`, `C111_read`, `C111_refused`, `C111_layout`, `C111_dictionary`, `C111_overlay` |
| C112 | partial | `C112_sent`, `C112_configured_partial`, `C112_only`, `C112_reported`, `C112_default_refuted`, `C112_nodeid_refuted`, `C112_silent_refuted` |
| C113 | partial | `C113_frame`, `C113_calls`, `C113_stops_partial`, `C113_next_cycle`, `C113_no_other`, `C113_refused_refuted` |
| C114 | partial | `C114_restored_partial`, `C114_recover_nothing`, `C114_recover_refuted`, `C114_default_refuted` |

681 theorems for 114 properties.
