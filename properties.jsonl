{"id": "C01", "title": "Requests are numbered without repetition", "statement": "Every request that one connection (robot or gripper) sends over TCP carries a command id that no earlier request of that connection carried, and the ids are 0,1,2,... in sending order, as long as fewer than 2^32 requests are sent; the id returned to the caller is the id inside the bytes that were sent.", "quantifier": "for every sequence of requests of any kinds on one connection", "why_tests_cant": "Uniqueness is a statement about every history of a connection, up to the 32-bit wrap-around which no test reaches.", "anchors": ["src/network.rs: Network::create_header_for_robot, create_header_for_gripper, tcp_send_request"]}
{"id": "C02", "title": "A response handed to a caller is exactly one whole message with the caller's id", "statement": "If the peer writes a sequence of well-formed messages to the TCP stream, then whatever way the stream is cut into segments and whenever the client polls, the bytes a call returns for command id k are exactly the bytes of one complete message of that stream whose header id is k; nothing is cut, merged, reordered inside a message, or taken from another message, and reading never fails.", "quantifier": "for every sequence of well-formed messages, every segmentation of it, every interleaving of arrivals, polls, blocked reads and removals", "why_tests_cant": "The number of segmentations and interleavings is unbounded; loopback tests always see one segment per message.", "anchors": ["src/network.rs: Network::tcp_read_from_buffer, wait_for_response_to_arrive, tcp_receive_response, tcp_blocking_receive_response"]}
{"id": "C03", "title": "A response that has arrived is delivered", "statement": "A call that waits for the response to its request returns once all bytes of that response have arrived at the socket.", "quantifier": "for every arrival pattern in which the response completely arrives", "why_tests_cant": "It is a liveness claim over arrival schedules; coalesced segments are rare and timing dependent.", "anchors": ["src/network.rs: Network::tcp_read_from_buffer, wait_for_response_to_arrive"]}
{"id": "C04", "title": "The non-blocking response check does not block", "statement": "The documented non-blocking check for a response returns without waiting for the peer, whatever bytes have arrived so far.", "quantifier": "for every prefix of a message stream present in the socket at the time of the call", "why_tests_cant": "Needs a message cut in the middle of its body at exactly the right moment.", "anchors": ["src/network.rs: Network::tcp_receive_response, tcp_read_from_buffer"]}
{"id": "C05", "title": "Robot state decoding is exact", "statement": "A 2373-byte datagram that encodes a robot state is decoded to that very state, bit for bit including NaN payloads, every field from its own byte range; and a datagram whose boolean or mode bytes are out of range is never decoded to a state.", "quantifier": "for every robot state value and every 2373-byte string", "why_tests_cant": "The value space is 2^18984; swapped neighbouring fields of equal type pass tests using symmetric values.", "anchors": ["src/robot/types.rs: RobotStateIntern", "src/network.rs: serialize, deserialize"]}
{"id": "C06", "title": "Robot request byte layouts", "statement": "Each robot request is sent as its 12-byte little-endian header (command, command id, total size) followed by its arguments at the fixed offsets of the protocol, the size field equals the number of bytes sent, and the bytes determine the request uniquely.", "quantifier": "for every request kind and every argument value", "why_tests_cant": "Equality for all arguments, including which argument lands at which offset, cannot be sampled exhaustively.", "anchors": ["src/robot/service_types.rs: *RequestWithHeader, RobotCommandHeader", "src/robot.rs: set_collision_behavior .. set_filters", "src/robot/robot_impl.rs: execute_move_command"]}
{"id": "C07", "title": "Robot command byte layout", "statement": "Each real-time command is one 370-byte datagram: message id, joint positions, joint velocities, pose, twist, elbow, elbow-valid flag, finished flag, torques, each at its own offset, and the bytes determine the command.", "quantifier": "for every robot command", "why_tests_cant": "As C05: unbounded value space and field swaps.", "anchors": ["src/robot/types.rs: RobotCommand, MotionGeneratorCommand, ControllerCommand", "src/network.rs: udp_send"]}
{"id": "C08", "title": "Gripper message layouts", "statement": "Each gripper request is its 10-byte header followed by its arguments in protocol order (grasp: width, inner epsilon, outer epsilon, speed, force), the size field equals the byte count, decoding inverts encoding, and a gripper state datagram of 23 bytes decodes to the state that was encoded.", "quantifier": "for every gripper request and every gripper state", "why_tests_cant": "Argument-order mistakes between same-typed f64 arguments need every value to be distinguished.", "anchors": ["src/gripper.rs: grasp, move_gripper, homing, stop, connect", "src/gripper/types.rs"]}
{"id": "C09", "title": "A received UDP object is one datagram that was sent", "statement": "Whatever datagrams are queued, the object handed out by a UDP receive is the decoding of one single datagram that arrived, never a mixture of several.", "quantifier": "for every queue of datagrams of any sizes", "why_tests_cant": "Depends on the exact queue content at the time of the call.", "anchors": ["src/network.rs: Network::udp_blocking_receive, udp_receive"]}
{"id": "C10", "title": "Commands go to the sender of the state they answer", "statement": "A real-time command is sent to the address from which the robot state it answers was received.", "quantifier": "for every queue of datagrams from any senders", "why_tests_cant": "Needs several senders racing on one port.", "anchors": ["src/network.rs: Network::udp_blocking_receive, udp_send"]}
{"id": "C11", "title": "Robot states seen by the user never go back in time", "statement": "The robot states returned by successive reads and passed to successive callbacks on one Robot have strictly increasing message ids and therefore strictly increasing time stamps, whatever the network loses, duplicates or reorders.", "quantifier": "for every sequence of API calls and every schedule of datagram arrivals", "why_tests_cant": "Universal over loss/duplication/reordering patterns and call histories.", "anchors": ["src/robot/robot_impl.rs: receive_robot_state, update_state_with, read_once, update", "src/robot.rs: read"]}
{"id": "C12", "title": "The freshest available state is used", "statement": "When several robot states are waiting, the one with the greatest message id is returned.", "quantifier": "for every set and order of waiting datagrams", "why_tests_cant": "Order dependence under reordering; in-order loopback never shows it.", "anchors": ["src/robot/robot_impl.rs: receive_robot_state", "src/network.rs: udp_receive, udp_blocking_receive"]}
{"id": "C13", "title": "A timeout is reported only when nothing arrived", "statement": "A blocking state receive reports the timeout error only if no datagram was waiting and none arrived during the timeout interval; no arrival is ever lost to a missed wake-up.", "quantifier": "for every interleaving of arrivals with poll, receive and drain steps", "why_tests_cant": "Lost wake-ups depend on interleavings of the kernel and the drain loop.", "anchors": ["src/network.rs: Network::udp_blocking_receive"]}
{"id": "C14", "title": "Commands echo the newest accepted state", "statement": "Every real-time command carries the message id of the robot state most recently accepted before it was sent, and within one motion no two commands carry the same message id.", "quantifier": "for every run of a control loop with any callbacks and any schedule", "why_tests_cant": "A property of whole runs.", "anchors": ["src/robot/robot_impl.rs: send_robot_command, update", "src/robot/control_loop.rs: do_loop"]}
{"id": "C15", "title": "Incomplete or unsolicited commands are refused and never sent", "statement": "A command is sent only if a motion generator command is present and a motion is active, and torques are present exactly when the motion was started with external control; otherwise the matching error is returned and nothing is sent. A motion without external control is sent with zero torques.", "quantifier": "for every combination of active modes and supplied commands", "why_tests_cant": "All combinations of modes and optional commands in every history, including what must not be sent.", "anchors": ["src/robot/robot_impl.rs: send_robot_command"]}
{"id": "C16", "title": "At most one command per state", "statement": "During a motion every command is preceded by the receipt of a new state, so the robot gets at most one command per state it sent.", "quantifier": "for every run and every schedule", "why_tests_cant": "A counting property over whole runs.", "anchors": ["src/robot/robot_impl.rs: update", "src/robot/control_loop.rs: do_loop"]}
{"id": "C17", "title": "The finished flag appears exactly at the end", "statement": "In a motion, all commands sent before the user callback reports completion have the finished flag false; after that only finished commands are sent, carrying the last motion values, until the robot has stopped.", "quantifier": "for every callback behaviour and every run", "why_tests_cant": "Quantifies over callbacks and run lengths.", "anchors": ["src/robot/control_loop.rs: do_loop", "src/robot/robot_impl.rs: finish_motion"]}
{"id": "C18", "title": "Time steps handed to callbacks are exact", "statement": "The first callback of a motion gets a time step of zero; every later one gets the difference between the time of the state it is called with and the time of the state of the previous call, which is at least one millisecond; the steps add up to the elapsed robot time and no step computation can fail.", "quantifier": "for every run and schedule", "why_tests_cant": "Sums over unbounded runs with losses; underflow would be a panic in rare reorderings.", "anchors": ["src/robot/control_loop.rs: do_loop, spin_motion, spin_control"]}
{"id": "C19", "title": "Callback discipline", "statement": "In a torque-controlled motion each state is first given to the motion callback and then to the torque callback with the same time step; once either reports completion no callback is called again in that motion.", "quantifier": "for every callback behaviour and every run", "why_tests_cant": "Quantifies over callbacks and runs.", "anchors": ["src/robot/control_loop.rs: do_loop, spin_motion, spin_control"]}
{"id": "C20", "title": "A failed control loop stops the robot before returning the error", "statement": "If the loop fails after the motion was started, exactly one stop request is sent before the error is returned to the user and the error is returned unchanged; if it succeeds no stop request is sent.", "quantifier": "for every point at which the loop can fail", "why_tests_cant": "Failures can strike at every step of an unbounded run.", "anchors": ["src/robot/control_loop.rs: run, do_loop", "src/robot/robot_impl.rs: cancel_motion, execute_stop_command"]}
{"id": "C21", "title": "Enforced real time is checked before any motion", "statement": "With the Enforce setting on a machine without real-time kernel, every control call returns the real-time error and sends nothing at all to the robot; with the Ignore setting the kernel is not consulted.", "quantifier": "for every control call, callback and robot state", "why_tests_cant": "Claims the absence of any effect on all paths.", "anchors": ["src/robot/control_loop.rs: new_intern, new, from_control_mode", "src/robot/control_tools.rs: has_realtime_kernel"]}
{"id": "C22", "title": "No command before the robot confirmed the motion", "statement": "Starting a motion sends exactly one move request with the requested modes and the default deviations and sends no real-time command; it succeeds only after the robot accepted the request, and the loop begins only when robot state shows the requested modes or a further success reply came.", "quantifier": "for every robot reply and every schedule of states", "why_tests_cant": "Quantifies over reply/state interleavings.", "anchors": ["src/robot/robot_impl.rs: start_motion, execute_move_command", "src/robot/control_loop.rs: new, from_control_mode"]}
{"id": "C23", "title": "The handle is reusable after a motion", "statement": "After a control call has returned without panicking, whether with success or with an error from the running loop, the robot is idle according to the last accepted state and commands outside a motion are refused again.", "quantifier": "for every history of motions", "why_tests_cant": "Invariant over all histories.", "anchors": ["src/robot/robot_impl.rs: finish_motion, cancel_motion, start_motion"]}
{"id": "C24", "title": "Robot status codes map to results faithfully", "statement": "A robot setter, the stop call, the recovery call and the move request return success exactly for the success codes of the protocol, every other defined code gives a command error with the message for this code, and an undefined code is never treated as success.", "quantifier": "for every status byte", "why_tests_cant": "Totality over all codes and commands (undefined ones included).", "anchors": ["src/robot.rs: handle_getter_setter_status, stop, automatic_error_recovery", "src/robot/robot_impl.rs: handle_command_response_move, handle_command_response_stop"]}
{"id": "C25", "title": "Gripper results are faithful", "statement": "A gripper action returns true exactly for status Success, false exactly for Unsuccessful, a command error for Fail and Aborted; stop, homing, move and grasp send exactly one request and consume exactly its response.", "quantifier": "for every action, argument and status code", "why_tests_cant": "Totality over codes and histories.", "anchors": ["src/gripper.rs: handle_response_status, homing, grasp, move_gripper, stop"]}
{"id": "C26", "title": "Version negotiation", "statement": "Connecting succeeds only if the peer reported success and then records the peer's version; otherwise the incompatible-version error with the peer's and the library's versions is returned and no handle exists.", "quantifier": "for every connect response", "why_tests_cant": "All versions and statuses, robot and gripper.", "anchors": ["src/robot/robot_impl.rs: connect_robot, new", "src/gripper.rs: connect"]}
{"id": "C27", "title": "Torque rate limit", "statement": "With rate limiting on, in IEEE double arithmetic, the torque command differs from the last commanded torque by at most the robot's limit of 1 Nm per millisecond for every finite torque returned by the callback, however large, and the result is finite.", "quantifier": "for every finite requested torque and every last torque of magnitude up to 2^30 Nm", "why_tests_cant": "Continuum of inputs including overflow and rounding corners.", "anchors": ["src/robot/rate_limiting.rs: limit_rate_torques, MAX_TORQUE_RATE", "src/robot/control_loop.rs: spin_control"]}
{"id": "C28", "title": "Joint velocity limiter keeps velocity and acceleration in range", "statement": "With rate limiting on, for every sequence of requested joint velocities the commanded joint velocities stay within the velocity limit and consecutive ones within the acceleration limit, provided the starting velocity is within the limit.", "quantifier": "for every request sequence of any length and every in-range start", "why_tests_cant": "Closed-loop invariant over infinite input sequences.", "anchors": ["src/robot/rate_limiting.rs: limit_rate_velocity, limit_rate_joint_velocities", "src/robot/control_types.rs: JointVelocities::convert_motion"]}
{"id": "C29", "title": "Joint jerk limit", "statement": "With rate limiting on the jerk of consecutive joint velocity commands stays within the jerk limit.", "quantifier": "for every request sequence from every in-range start", "why_tests_cant": "Violations need the velocity clamp and the acceleration state to interact.", "anchors": ["src/robot/rate_limiting.rs: limit_rate_velocity"]}
{"id": "C30", "title": "Joint position limiter", "statement": "With rate limiting on, successive joint position commands differ by at most the velocity limit times one millisecond, for every sequence of requested positions, provided the robot's reported velocity is consistent and in range.", "quantifier": "for every request sequence", "why_tests_cant": "Closed-loop invariant.", "anchors": ["src/robot/rate_limiting.rs: limit_rate_position, limit_rate_joint_positions", "src/robot/control_types.rs: JointPositions::convert_motion"]}
{"id": "C31", "title": "Cartesian velocity limiter", "statement": "With rate limiting on, the norm of the commanded translational and rotational velocity stays within its limit and its change per step within the acceleration limit, for every sequence of requested twists from an in-range start, in exact arithmetic. In double arithmetic this holds of every twist command of every run whose answered state reports a speed at least a billionth below the library's limit.", "quantifier": "for every request sequence; for every run and every command", "why_tests_cant": "Three-dimensional continuum with a square root that can leave its domain.", "anchors": ["src/robot/rate_limiting.rs: limit_rate_single_cartesian_velocity, limit_rate_cartesian_velocity"]}
{"id": "C32", "title": "Rate limiting does not alter commands that respect the limits", "statement": "A request whose velocity, acceleration and jerk (torque: rate) are within the limits is passed through unchanged (exact arithmetic); for poses this includes the orientation.", "quantifier": "for every request within limits", "why_tests_cant": "Continuum of inputs.", "anchors": ["src/robot/rate_limiting.rs: limit_rate_velocity, limit_rate_torques, limit_rate_position"]}
{"id": "C33", "title": "Low-pass filter is a strict convex combination", "statement": "For a valid cutoff frequency the filtered value lies between the previous and the requested value, equals both if they agree, moves strictly towards the request, and repeated filtering of a constant request converges to it; a cutoff at or above the maximum leaves commands unfiltered; non-positive or non-finite arguments are refused. A filtered pose is turned from the previous one about the requested axis by the filter's share of the requested angle.", "quantifier": "for every finite value pair, cutoff frequency and number of steps", "why_tests_cant": "Continuum of inputs and unbounded iteration; argument corner cases such as +0.", "anchors": ["src/robot/low_pass_filter.rs: low_pass_filter", "src/robot/control_types.rs: convert_motion", "src/robot/control_loop.rs: spin_control"]}
{"id": "C34", "title": "Only finite numbers are sent", "statement": "Every real-time command that is sent contains only finite numbers in all its fields, whatever the callbacks return; otherwise the loop panics before sending.", "quantifier": "for every callback output (NaN and infinities included), every state and every option", "why_tests_cant": "All bit patterns at every step.", "anchors": ["src/robot/control_types.rs: convert_motion, check_matrix, check_elbow", "src/robot/control_loop.rs: spin_control"]}
{"id": "C35", "title": "Elbow configurations sent are valid", "statement": "A command with the elbow flag set has an elbow sign of exactly +1 or -1; a callback output without elbow sends the flag cleared and zeros.", "quantifier": "for every callback output", "why_tests_cant": "All bit patterns.", "anchors": ["src/robot/control_types.rs: CartesianPose::convert_motion, CartesianVelocities::convert_motion, check_elbow, is_valid_elbow"]}
{"id": "C36", "title": "Poses sent are rigid transformations", "statement": "A commanded pose that passes the homogeneity check is a rigid transformation: orthonormal rotation part within tolerance and last row 0,0,0,1; every exact rigid transformation passes.", "quantifier": "for every 16-element matrix", "why_tests_cant": "Continuum of matrices; adversarial ones are never in tests.", "anchors": ["src/robot/control_tools.rs: is_homogeneous_transformation", "src/robot/control_types.rs: check_matrix"]}
{"id": "C37", "title": "The error log is the last records of this motion in order", "statement": "The log attached to a control exception contains, oldest first, exactly the last min(n, log size) state/command pairs of the motion that failed, n being the number of commands sent in it.", "quantifier": "for every log size, every history of motions and every number of commands", "why_tests_cant": "Ring-buffer arithmetic over all lengths and across several motions.", "anchors": ["src/robot/logger.rs: Logger::log, flush", "src/robot/robot_impl.rs: start_motion, throw_on_motion_error, finish_motion"]}
{"id": "C38", "title": "Building a control exception cannot fail", "statement": "Whatever the log holds, creating the exception for an aborted motion returns an exception; it never panics, and the reported number of lost packets is the gap between the last two states minus one.", "quantifier": "for every log produced by any history", "why_tests_cant": "Needs particular ring-buffer positions.", "anchors": ["src/robot/robot_impl.rs: create_control_exception"]}
{"id": "C39", "title": "Error flags are reported faithfully", "statement": "The decoded error set contains an error exactly if the robot set its flag, each at most once, in protocol order, for all 41 flags; the textual form lists exactly these.", "quantifier": "for all 2^41 flag vectors", "why_tests_cant": "2^41 cases.", "anchors": ["src/robot/errors.rs: FrankaErrors::new, contains, Display", "src/robot/error.rs: FrankaError", "src/robot/types.rs: combine_errors, combine_reflex_reasons"]}
{"id": "C40", "title": "Total load parameters are physically right", "statement": "The total mass, centre of mass and inertia reported in a robot state are those of the rigid body composed of end effector and load (parallel axis theorem), and reduce to one part when the other has no mass.", "quantifier": "for all masses, centres and inertias", "why_tests_cant": "Continuum of inputs.", "anchors": ["src/robot/robot_state.rs: combine_center_of_mass, combine_inertia_tensor, skew_symmetric_matrix_from_vector, From<RobotStateIntern>"]}
{"id": "C41", "title": "Joint motion starts at the start and ends at the goal", "statement": "The motion generator's first output is the robot's commanded position, its trajectory is continuous, and when it reports completion its output is the goal (up to the stated tolerance).", "quantifier": "for every start, goal, positive speed factor and sequence of periods", "why_tests_cant": "Continuum of inputs and time.", "anchors": ["src/utils.rs: MotionGenerator", "src/robot.rs: joint_motion"]}
{"id": "C42", "title": "Joint motion respects its speed and acceleration limits", "statement": "The velocity and acceleration of every joint along the generated trajectory never exceed the generator's limits scaled by the speed factor.", "quantifier": "for every start, goal, positive speed factor and time", "why_tests_cant": "Continuum of inputs and time; derivative bounds.", "anchors": ["src/utils.rs: MotionGenerator::calculate_desired_values, calculate_synchronized_values"]}
{"id": "C43", "title": "All joints finish together", "statement": "All joints that have to move reach their goal at the same time, which is the least time the slowest joint needs under the limits.", "quantifier": "for every start, goal and positive speed factor", "why_tests_cant": "Continuum of inputs.", "anchors": ["src/utils.rs: MotionGenerator::calculate_synchronized_values"]}
{"id": "C44", "title": "Model queries use the documented frame and inputs", "statement": "Pose and Jacobian queries call the routine of exactly the requested frame with the joint positions and, for the flange/end effector/stiffness frames, the composition of exactly the documented transformations; the state-based variants use the corresponding fields of the state.", "quantifier": "for every frame and every input", "why_tests_cant": "Function identity over all frames and inputs; argument mix-ups.", "anchors": ["src/model.rs: Model::pose, body_jacobian, zero_jacobian, *_from_state", "src/model/model_library.rs: ModelLibrary"]}
{"id": "C45", "title": "Coriolis from state uses the total inertia", "statement": "The coriolis vector computed from a state is that for the total inertia, total mass and total centre of mass of the state.", "quantifier": "for every state", "why_tests_cant": "Differs only if the end effector has its own inertia.", "anchors": ["src/model.rs: Model::coriolis_from_state"]}
{"id": "C46", "title": "Model file life cycle", "statement": "After a successful non-persistent model load the file that this call downloaded is gone and a file that existed before the call is untouched; after a persistent load the file is present.", "quantifier": "for every initial file presence and every persistence flag", "why_tests_cant": "Effect on the file system in each combination and over sequences of calls.", "anchors": ["src/robot/robot_impl.rs: load_model", "src/model/library_downloader.rs: LibraryDownloader::download"]}
{"id": "C47", "title": "Default behaviour is applied completely or the error is reported", "statement": "Setting the default behaviour sends the collision, joint impedance and Cartesian impedance requests with the documented values in this order, each only after the previous one succeeded, and reports the first failure.", "quantifier": "for every sequence of robot replies", "why_tests_cant": "All reply combinations, absence of later requests.", "anchors": ["src/robot.rs: set_default_behavior, set_collision_behavior, set_joint_impedance, set_cartesian_impedance"]}
{"id": "C48", "title": "The read loop stops exactly on request", "statement": "The read loop calls the callback once per received state, in order, and returns right after the first false, or with the first receive error; no state is consumed after it.", "quantifier": "for every callback and schedule", "why_tests_cant": "Unbounded runs.", "anchors": ["src/robot.rs: Robot::read"]}
{"id": "C49", "title": "Model library download is complete", "statement": "The bytes returned by the model download are exactly the payload behind the 13-byte response header, for any payload size and any TCP segmentation, and an error status never yields a library.", "quantifier": "for every payload and segmentation", "why_tests_cant": "Payloads are larger than the 70000-byte window, so many partial reads are involved.", "anchors": ["src/network.rs: tcp_blocking_receive_load_library_response, tcp_read_from_buffer", "src/model/library_downloader.rs: download"]}
{"id": "C50", "title": "A gripper state read is fresh", "statement": "Reading the gripper state discards states that were queued before the call and returns a state that arrived after the call started, or a network error.", "quantifier": "for every queue content and arrival schedule", "why_tests_cant": "Depends on queue content at call time.", "anchors": ["src/gripper.rs: read_once", "src/network.rs: udp_receive, udp_blocking_receive"]}
{"id": "C51", "title": "Unused command fields are zero", "statement": "In every real-time command that is sent, the motion fields that do not belong to the running motion type are zero.", "quantifier": "for every callback, every option and every schedule", "why_tests_cant": "All outputs, states and run lengths.", "anchors": ["src/robot/control_types.rs: convert_motion", "src/robot/robot_impl.rs: send_robot_command, update"]}
{"id": "C52", "title": "Commands have the wire shape", "statement": "Every command of a program whose callbacks return arrays of the type's dimension has arrays of the length and range that the wire format encodes without loss, and its message id fits.", "quantifier": "for every well-typed callback, every option and every schedule", "why_tests_cant": "All outputs and run lengths.", "anchors": ["src/robot/control_types.rs: convert_motion", "src/robot/robot_impl.rs: send_robot_command", "src/robot/types.rs: RobotCommand"]}
{"id": "C53", "title": "Without limiter and filter outputs are sent verbatim", "statement": "With rate limiting off and a cutoff frequency of at least 1000 Hz, each command of a running motion carries, bit for bit, the numbers (and torques) which the callback returned for the state that is being answered.", "quantifier": "for every callback and every schedule", "why_tests_cant": "All bit patterns, states and run lengths.", "anchors": ["src/robot/control_types.rs: convert_motion", "src/robot/control_loop.rs: spin_motion, spin_control", "src/robot/robot_impl.rs: update"]}
{"id": "C54", "title": "Limited poses: translation and rotation within limits", "statement": "With rate limiting on, for every sequence of requested valid poses the translational velocity between consecutive commanded poses stays within the limit, its change within the acceleration limit, and the commanded poses have the last row 0,0,0,1, provided the starting velocity is within the limit. The commanded poses are rotations with determinant 1 if the last one was, and the orientation turns with an angular velocity within 99 percent of the robot's limit whose change is within 99 percent of the acceleration limit. In double arithmetic the position of every pose command stays within the limits with respect to the state it answers.", "quantifier": "for every request sequence, every implementation of the rotation functions and every reported rotation", "why_tests_cant": "Closed-loop invariant over infinite input sequences.", "anchors": ["src/robot/rate_limiting.rs: limit_rate_cartesian_pose", "src/robot/control_types.rs: CartesianPose::convert_motion"]}
{"id": "C55", "title": "The user's robot state comes from the documented places of the datagram", "statement": "Every field of the robot state handed to callbacks and returned by read_once holds the number at its documented byte offset of the state datagram, the totals are computed from the transmitted masses, centres and inertias, and the duration is the transmitted message id in milliseconds.", "quantifier": "for every datagram of the state's length", "why_tests_cant": "2373 byte datagrams; a swapped field shows only if the two fields differ.", "anchors": ["src/robot/robot_state.rs: RobotState, From<RobotStateIntern>", "src/robot/types.rs: RobotStateIntern"]}
{"id": "C56", "title": "Callbacks keep their state and are replayable", "statement": "In a control call the callbacks are called one after the other, each in the state its predecessor left, and every recorded output is the converted result of that call. Without torque callback the outputs are a function of the states and time steps shown to the callback, one output per call unless a callback panics or its output is refused.", "quantifier": "for every controller, every start state of the handle and every behaviour of the robot and network", "why_tests_cant": "A callback is an arbitrary stateful closure and the loop runs for an unbounded number of cycles.", "anchors": ["src/robot/control_loop.rs: do_loop, spin_motion, spin_control"]}
{"id": "C57", "title": "Torque control commands no motion to an arm at rest", "statement": "control_torques asks for external control of a joint velocity motion. As long as the robot reports zero desired velocities and accelerations, every velocity it sends is zero and so are all fields of other kinds of motion, for every cutoff frequency and with or without rate limiting.", "quantifier": "for every torque callback, cutoff frequency, limiter setting, program of such calls and behaviour of robot and network", "why_tests_cant": "Arbitrary cutoff frequencies go through the binary64 filter; arbitrary programs and runs.", "anchors": ["src/robot.rs: control_torques", "src/robot/control_types.rs: JointVelocities::convert_motion"]}
{"id": "C58", "title": "joint_motion sends the generator's samples", "statement": "joint_motion requests a joint position motion with joint impedance. The positions sent are those the motion generator computes from the states and time steps of the control loop, unfiltered and rate limited, and the call succeeds only after the generator has reported the end of the motion.", "quantifier": "for every speed factor, goal, start state and behaviour of robot and network", "why_tests_cant": "The generator is stateful and the states it is called with depend on the whole run.", "anchors": ["src/robot.rs: joint_motion", "src/utils.rs: MotionGenerator"]}
{"id": "C59", "title": "Callbacks run only while the robot reports the requested motion", "statement": "Between a move request and its end, the motion callback is only called with a state in robot mode Move whose controller and motion generator modes are those requested, and the command that ends the motion is only sent while the last state read still shows a motion.", "quantifier": "for every program of API calls, every callback and every behaviour of robot and network", "why_tests_cant": "The robot may change mode in any cycle of an unbounded run, and the state shown to the callback is chosen among several waiting ones.", "anchors": ["src/robot/robot_impl.rs: update, throw_on_motion_error", "src/robot/control_loop.rs: do_loop"]}
{"id": "C60", "title": "Reading bytes refines receiving whole messages", "statement": "Whatever the pieces in which responses arrive and however polls fall between them, the results of the waiting and checking receive calls and the table of stored responses are those of a client that receives one whole message or nothing per poll; those messages are, in order and without gap, a prefix of the messages the peer sends.", "quantifier": "for every sequence of receive calls, every chunking and timing of the byte stream, spurious readiness events and closing of the connection", "why_tests_cant": "Chunkings and interleavings of an unbounded stream with an unbounded sequence of calls cannot be enumerated.", "anchors": ["src/network.rs: tcp_read_from_buffer, tcp_receive_response, wait_for_response_to_arrive"]}
{"id": "C61", "title": "With a cooperative robot every call succeeds", "statement": "On a connected handle with nothing going on, a control call returns Ok whenever the robot answers the start and the end of the motion, shows the requested modes and Move mode while the callbacks run, sends at least one newer state per cycle (any number of states, at any moments, outdated ones among them) and finally a state at rest, and the callbacks do not panic and finish. The motion callback then gets exactly the newest state of each cycle with its true time step, one command is sent per state after the first, and the handle is in the same condition again, so every sequence of control, read, read_once, setter, recovery, stop and virtual wall calls succeeds.", "quantifier": "for all controllers and callbacks, all numbers of cycles before, during and after the motion, all contents of the states, all arrival patterns of the datagrams, all delays of the responses, all sequences of calls", "why_tests_cant": "The number of cycles, the callbacks and the sequences of calls are unbounded; a test with a simulated robot shows one of them.", "anchors": ["src/robot/control_loop.rs: do_loop, run", "src/robot/robot_impl.rs: start_motion, finish_motion, update, receive_robot_state", "src/robot.rs: read, read_once, control calls"]}
{"id": "C62", "title": "Elbow limiter", "statement": "With rate limiting on, the elbow angle of every Cartesian command that carries one differs from the elbow angle in the state answered by at most 2.175 rad/s times one millisecond, and that speed differs from the elbow speed in the state by at most 10 rad/s^2 times one millisecond, provided the reported speed is in range.", "quantifier": "for every callback output (NaN and infinity included), every reported elbow acceleration and every reported angle up to 1024 rad, in IEEE-754 double arithmetic", "why_tests_cant": "All bit patterns of request and report.", "anchors": ["src/robot/rate_limiting.rs: limit_rate_position", "src/robot/control_types.rs: CartesianPose::convert_motion, CartesianVelocities::convert_motion"]}
{"id": "C63", "title": "Options of control calls", "statement": "Every control call sends exactly one move request, for the motion type of the call, with external control if there is a torque callback and otherwise the controller asked for, joint impedance by default, allowing deviations of 10 m, 3.12 rad and 2 pi; a failing call may send none or a stop request after it.", "quantifier": "for every combination of options and callbacks, every earlier history of the handle and every behaviour of robot and network", "why_tests_cant": "The claim covers all outcomes of the call, including every failure at any point of a run.", "anchors": ["src/robot.rs: control_torques, control_motion_intern, control_torques_intern", "src/robot/control_loop.rs: ControlLoop::new, from_control_mode, new_intern"]}
{"id": "C64", "title": "Responses are decoded from their own bytes", "statement": "A robot or gripper response is decoded to a value exactly when its leading bytes hold that value field by field at the offsets of the packed structures (command and status numbers of the protocol, little endian), whatever follows; a virtual wall is returned as it stands in the reply.", "quantifier": "for every byte string of any length and every response type", "why_tests_cant": "All byte strings.", "anchors": ["src/robot/service_types.rs: *Response, RobotCommandHeader", "src/gripper/types.rs: *Response", "src/robot.rs: get_virtual_wall"]}
{"id": "C65", "title": "Documented outputs are accepted, others refused", "statement": "An output of a callback as documented (the right number of moderate numbers, a pose with unit rows and columns and exact last row, an elbow with sign +1 or -1) is converted into a command for every reported state with moderate numbers and velocities within the limits, whatever the filter and limiter settings; so a control call with such callbacks and a robot that answers returns Ok. An output with a number that is not finite, or an elbow sign other than +1 and -1, is always refused.", "quantifier": "for every such output and state in binary64, every cutoff frequency from 2^-900 Hz, every sequence of states and callbacks", "why_tests_cant": "Overflow or an invalid operation inside filter and limiter depends on the combination of output, reported state and options; the call-level claim quantifies over whole runs.", "anchors": ["src/robot/control_types.rs: convert_motion, check_elbow", "src/robot/rate_limiting.rs", "src/robot/low_pass_filter.rs", "src/robot/control_loop.rs: convert_motion"]}
{"id": "C66", "title": "Constants of the rate limiters", "statement": "Each constant of the rate limiters (velocity, acceleration, jerk of joints, translation, rotation and elbow; torque rate) is, as a double, below the documented limit of the robot it stands for, by at least 0.0009 and at most 0.00103.", "quantifier": "for each of the 37 constants", "why_tests_cant": "The constants are results of rounded arithmetic; a test of a limiter uses the same constants and cannot see that one is too large.", "anchors": ["src/robot/rate_limiting.rs 16-78"]}
{"id": "C67", "title": "joint_motion keeps its speed and acceleration, reaches its goal and succeeds", "statement": "The motion generator in binary64 arithmetic, started with a speed factor from 1/1024 to 1 and joint angles of at most 4 rad: up to the first finished one all its commands are seven finite numbers of at most 40 in absolute value; the first command is within 1e-6 rad of the start, the finished one within 1e-6 rad of the goal (plus 1e-14); it is finished as soon as 7.001 s / speed factor have passed since the first call. From one call to the next, p ms later, joint i moves at most v_i * speed factor * p ms (v = 2 rad/s for joints 1-4, 2.5 rad/s for 5-7; up to 1e-4 relative and 1e-11 rad), and over three calls with equal periods its second difference is at most 5 rad/s^2 * speed factor * p^2 (up to 1e-6 relative and 2e-11 rad). So Robot::joint_motion returns Ok whenever the robot answers the Move request, goes on sending newer states and ends the motion when asked.", "quantifier": "for every such speed factor, goal and start, every sequence of periods, every sequence of states, every conversation in which the robot cooperates", "why_tests_cant": "The planned speed is the root of a difference which nearly cancels, so whether the time constants are finite and ordered depends on rounding for each goal; tests try a handful of goals at one period.", "anchors": ["src/utils.rs: MotionGenerator 32-190", "src/robot.rs: joint_motion 1040-1048"]}
{"id": "C68", "title": "Gripper calls return what the gripper answered", "statement": "If the gripper answers the Connect request with success, Gripper::new succeeds and server_version is the version it sent. If it then answers each request (with the request's number, after any delay) and sends states, every sequence of homing, move, grasp, stop and read_once calls returns: Ok(true), Ok(false) or the command error as the status says, and for read_once the state that arrived after the call began, whatever older states were waiting. Nothing is left over in the table of responses or the UDP queue.", "quantifier": "for every sequence of calls, every sequence of statuses, every delay of the answers and every number of older states", "why_tests_cant": "There is no gripper in the tests; a call that waits forever or gives back an old state shows only in particular interleavings.", "anchors": ["src/gripper.rs: 47-192", "src/network.rs: udp_receive, udp_blocking_receive 249-299, tcp_blocking_receive_response 141-175"]}
{"id": "C69", "title": "The example programs communication_test and echo_robot_state report correctly", "statement": "If the torque motion of communication_test succeeds it ended with the first call ten seconds or more after the first state, and the report is right: the number of samples is the number of calls after the first, the number of lost states is the number of milliseconds up to the last state for which the callback was not called, the greatest and the least success rates are rates seen and bound all of them (rates from 0 to 1), the average lies in [0,1] and is the mean of the rates up to 1e-12, the advice printed is the one for this average, and if all rates were 1 it is 1 and no warning is printed. Its callback never panics. If the robot accepts the motion, goes on sending states for ten seconds (with any losses) and ends the motion when asked, the test does succeed. echo_robot_state, if it succeeds, has printed 101 new states and sent nothing; otherwise it printed at most 100 and ends with a network error.", "quantifier": "for every reachable handle, every sequence of arrivals, losses and success rates", "why_tests_cant": "The examples are never run by the tests; the counters depend on which states arrive during ten seconds with a robot.", "anchors": ["examples/communication_test.rs: main 21-112", "examples/echo_robot_state.rs: main 16-31", "src/control_loop.rs: 131-216", "src/robot.rs: control_torques 904-953, read 176-187"]}
{"id": "C70", "title": "The motions of the example programs are smooth, come back to their start and pass the rate limiter unaltered", "statement": "In exact arithmetic, whatever states arrive and are lost, the callbacks of generate_joint_position_motion, generate_joint_velocity_motion, generate_consecutive_motions, generate_cartesian_pose_motion, generate_cartesian_velocity_motion and generate_elbow_motion follow their curves from the first position commanded (pi/8 (1-cos) on three joints; periods of max/2 (1-cos) of alternating sign; a quarter circle of 0.3 m; a line at 45 degrees with at most 0.1 m/s; pi/10 (1-cos) for the elbow), and finish with the first call at or after the end of the curve. With one state per millisecond they end exactly at their start (the velocities add up to zero, the last one is zero), only the last output is marked finished, and two poses after each other are at most 0.15 mm apart. Then the joint and elbow commands sent, after filter and rate limiter with any cutoff frequency, are exactly the filtered curve: the limiter never changes anything. The twists sent stay on the line and have the speeds of the filtered curve up to 10^-12 m/s (the limiter takes a jerk or an acceleration up to 2^-52 for none). The poses sent keep the orientation of the first one, and their origins are on the filtered circle up to 10^-12 m.", "quantifier": "for every start position, every sequence of states and time steps (finishing at the start, limits: every number of states at 1 ms), every positive cutoff frequency (twists and poses: from 1 mHz on)", "why_tests_cant": "The examples are never run by the tests; that thousands of consecutive differences stay within three limits is a statement about cos, not about samples.", "anchors": ["examples/generate_joint_position_motion.rs 43-61", "examples/generate_joint_velocity_motion.rs 46-65", "examples/generate_consecutive_motions.rs 45-64", "examples/generate_cartesian_pose_motion.rs 45-66", "examples/generate_cartesian_velocity_motion.rs 53-75", "examples/generate_elbow_motion.rs 42-61", "src/robot/rate_limiting.rs", "src/robot/low_pass_filter.rs", "src/robot/control_types.rs 154-257, 376-400"]}
{"id": "C71", "title": "The joint and torque rate limiters alter a request as little as possible", "statement": "In exact arithmetic: if any command meets the limiter's conditions (jerk, acceleration, and acceleration at most J/A times the distance to the velocity limit), the joint velocity or position command sent meets them, and for no joint is any such command nearer to the request; hence a request is sent unaltered exactly if it meets them. A greater request never gives a smaller command. In a motion which starts with constant velocity within the limits such a command always exists, so every command of the motion is the nearest one. For torques the command sent is always the nearest one within the permitted rate.", "quantifier": "for every request, every last velocity and acceleration, every sequence of requests", "why_tests_cant": "The tests check a few requests against the limits; that no admissible command is nearer, over all requests and histories, needs a proof.", "anchors": ["src/robot/rate_limiting.rs: limit_rate_joint_positions 95-120, limit_rate_velocity 171-195, limit_rate_torques 212-228, limit_rate_joint_velocities 244-267"]}
{"id": "C72", "title": "A pose given as an array becomes the same pose as quaternion and translation", "statement": "array_to_isometry returns the translation of the array and a unit quaternion which turns every direction as the rotation of the array does. In exact arithmetic this holds for the conversion of rotation matrices to quaternions always, and for the whole function up to 2^-51 rad if the orientation is at most 1.8 rad away from the base frame. It is false for an angle just above that, for which the iteration used never ends, and for exact half turns (a gripper pointing straight down): the result has no rotation, so that the pose limiter and the pose filter, told to stay, command half a turn.", "quantifier": "for every pose and every direction", "why_tests_cant": "The two tests of array_to_isometry only check that nothing is NaN, for two poses; the half turns are a null set which random tests do not hit.", "anchors": ["src/utils.rs: array_to_isometry 11-21", "src/robot/rate_limiting.rs: limit_rate_cartesian_pose 303-361", "src/robot/low_pass_filter.rs: cartesian_low_pass_filter 63-69"]}
{"id": "C73", "title": "The impedance controllers of the examples are passive springs and dampers", "statement": "The torques of cartesian_impedance_control and the task torques of mirror_robot are those of a wrench at the end effector: a force towards the desired position, a moment about the axis of the shorter rotation to the desired orientation, of size stiffness times the sine of half its angle, and damping 2 sqrt(k). At rest in the initial pose only the Coriolis torques remain. Along every motion the power of the torques is the rate at which the springs lose energy minus what the dampers take. The mirrored pose is the reflection of the guided robot's pose; the nullspace torques do no work against any wrench and pull home. The poses used by the mirroring robot are found by counting; its delay never shrinks while the guided robot sends.", "quantifier": "for every Jacobian, pose, velocity, stiffness and every differentiable motion; for every order of sending and receiving", "why_tests_cant": "The examples have no tests and need a robot; the power balance is a statement about all motions.", "anchors": ["examples/cartesian_impedance_control.rs: stiffness and damping 28-45, closure 69-102", "examples/mirror_robot.rs: gains 32-52, channel 66-71 and 92-95, closure 102-153"]}
{"id": "C74", "title": "Example programs as a whole: grasping and consecutive motions", "statement": "grasp_object asks the gripper in this order: connect, homing if wanted, grasp, stop. It grasps only after a state whose maximal width is not less than the object's width, and stops only after a later state which reports a grasped object. With a gripper which answers, the end is decided by the answers alone; unsuccessful homings and grasps are ignored. generate_consecutive_motions prepares the robot, then makes at most five velocity motions, each from time 0 (the commands are the filtered and limited values of the closure at the sum of the time steps); the motion before them goes to (0, -pi/4, 0, -3pi/4, 0, pi/2, pi/4) at half speed; after a control exception it asks for recovery and goes on; it ends well only after exactly five motions, and a control exception of a motion never ends it unless recovery fails. With a robot which plays the motions it ends well.", "quantifier": "for every width, port, schedule of packets and every answer of gripper and robot", "why_tests_cant": "The examples have no tests; they need a robot, and the order of requests depends on every possible packet schedule.", "anchors": ["examples/grasp_object.rs: 20-41", "examples/generate_consecutive_motions.rs: 21-81", "src/gripper.rs: homing, grasp, stop, read_once", "src/robot/mod.rs: control_joint_velocities, automatic_error_recovery"]}
{"id": "C75", "title": "Loading the model over a connection; download_model and print_joint_poses as a whole", "statement": "load_model uses /tmp/model.so if it is there and then asks the robot nothing; otherwise it sends one request and loads what was written of the library in the answer to exactly this request. Without persistent the file is gone afterwards if and only if it was there before. download_model copies the loaded file and ends well only if the copy succeeded; if the target is /tmp/model.so itself it reports success and leaves it empty, after which every load fails without asking the robot. print_joint_poses prints nine poses computed by the routines of the library, found by name, from a state received after the library was loaded; in successive runs the library is asked for in every other run. With a robot which answers, all of these succeed.", "quantifier": "for every robot, packet schedule, library, linker and answer of the file system", "why_tests_cant": "The tests use no robot, no linker and no second run; the behaviour depends on what earlier runs left in /tmp.", "anchors": ["src/robot/robot_impl.rs: 233-244", "src/model/library_downloader.rs: 23-43", "src/network.rs: 172-197", "examples/download_model.rs: 23-34", "examples/print_joint_poses.rs: 16-37"]}
{"id": "C76", "title": "Example programs with one motion, as a whole", "statement": "The programs for joint position, joint velocity, Cartesian pose, Cartesian velocity and elbow motions ask for the three defaults, then for exactly their own settings, go to (0, -pi/4, 0, -3pi/4, 0, pi/2, pi/4) at half speed, and only then request one motion of their kind with the joint impedance controller. They end well only after this motion. Every command of the motion is the filtered and limited value of the plan at the sum of the time steps since its first state, starting from the position, pose or elbow commanded in that first state; the finish flag is false before the stated duration (5, 2, 10, 8, 10 s) and true once more than it has passed. With a state every millisecond it is raised after exactly the duration for positions and twists and 1 ms later for the others. With functions of the usual kind and states a robot may report over at most an hour, the position, velocity and twist motions do end, and with a robot which answers and plays them the programs succeed; for the other two the latter holds if their commands are accepted.", "quantifier": "for every packet schedule, every answer of the robot, every sequence of states and all mathematical functions (with the usual bounds where stated)", "why_tests_cant": "The examples have no tests and need a robot; the clock is a floating-point sum over any number of steps of any length.", "anchors": ["examples/generate_joint_position_motion.rs: 19-62", "examples/generate_joint_velocity_motion.rs: 22-66", "examples/generate_cartesian_pose_motion.rs: 21-67", "examples/generate_cartesian_velocity_motion.rs: 19-76", "examples/generate_elbow_motion.rs: 18-62"]}
{"id": "C77", "title": "The communication test and the state echo, as a whole", "statement": "communication_test makes the default settings and its own, goes to the start position, and only then requests one motion with the external controller. Every torque sent in it is zero, the joint velocity generator is commanded zero without a finish flag. It ends well only with a report, made when at least 10 s, and not earlier, had passed since the first call; the report counts the calls, the milliseconds without a call and the smallest, greatest and average success rates (rates from 0 to 1) of exactly these calls. On any error it has sent a prefix of these requests, at most followed by a stop. With a robot which answers and plays the two motions it ends with such a report. echo_robot_state asks for the connection only, sends no command, shows at most 101 states with increasing identifiers, exactly 101 if it ends well; with a robot which sends 101 states it shows exactly these.", "quantifier": "for every packet schedule, every answer of the robot and every sequence of states", "why_tests_cant": "The examples have no tests and need a robot; the report depends on the timing of thousands of packets.", "anchors": ["examples/communication_test.rs: 21-108", "examples/echo_robot_state.rs: 17-30"]}
{"id": "C78", "title": "The Cartesian impedance program, as a whole", "statement": "cartesian_impedance_control connects, asks for the model library only if no file is there and keeps that file, makes its three settings, reads a state, and only then requests one motion, with the external controller. Every command of that motion carries torques which are the spring's torques for the state it answers, after the low-pass filter and the rate limiter: computed from the Coriolis and Jacobian routines of the loaded library at that state, with the spring fixed at the pose of the state read before; no torque changes by more than 1 Nm from the last desired one. No command ends the motion, so the program never ends with a completed motion: it ends well only after an error of the control call. On an earlier error it has sent a prefix of these requests and no command. With a robot which answers, a machine which can load the library and a newer state, the control call starts from a handle ready for it.", "quantifier": "for every packet schedule, every answer of the robot, every state of the files and every spring law", "why_tests_cant": "The example has no tests and needs a robot, its model library and a machine with given files.", "anchors": ["examples/cartesian_impedance_control.rs: 26-114"]}
{"id": "C79", "title": "The mirroring program, as a whole", "statement": "mirror_robot connects to both robots, has the mirroring one give the model library only if no file is there and keeps that file, makes the three settings of both robots, reads the pose of the user's robot, and only then requests one joint motion to the start position of each at a tenth of the speed, whose commands are the rate-limited positions of the motion generator; only when both are completed it requests one torque motion of each. The user's robot is sent zero torques, filtered and limited. Every command to the mirroring robot carries the filtered and limited torques for the state it answers, computed with the Coriolis and Jacobian routines of the loaded library and a pose of the user's robot: the one read at first, until another comes through the channel, and then the poses for which the torque callback of the user's robot was called, in that order, none left out or repeated out of order, at most one new pose in each call. No torque changes by more than 1 Nm from the last desired one. The program never ends well. On an earlier error it has sent a prefix of these requests and no command.", "quantifier": "for every packet schedule of both robots, all their answers, every state of the files, every arrival of poses in time or not, and every torque law", "why_tests_cant": "The example has no tests and needs two robots, the model library and two threads whose timing varies.", "anchors": ["examples/mirror_robot.rs: 33-157"]}
{"id": "C80", "title": "joint_motion's positions reach the robot unaltered", "statement": "In exact arithmetic, with a state every millisecond and a robot that reports what it was told, the positions joint_motion sends are exactly those of the motion generator: the rate limiter alters none of them. This holds for speed factors up to 0.37, and for greater ones s up to 1 if every joint has to go at least 0.018 s^2 rad, or at most 0.0009 rad, per second of the motion's duration. Without this condition it is false.", "quantifier": "for every start, goal, positive speed factor up to 1 and number of states", "why_tests_cant": "Whether three limits hold at every millisecond depends on the continuum of starts, goals and speeds; the failing motions are a few microradians long.", "anchors": ["src/robot.rs: 1040-1048", "src/utils.rs: 84-190", "src/robot/rate_limiting.rs: 29-57"]}
{"id": "C81", "title": "What exceptions print", "statement": "Two network, command, model or real-time exceptions print the same exactly if their messages are equal; the text is one line of printable characters for every ASCII message, and the message in quotes if nothing in it needs an escape, as in every answer of the robot made an exception. The text of a version error tells both versions. The text of a rejected or aborted motion, of the stop at its end, of a setter, of the error recovery and of a gripper action tells the answer. It is false that the text tells the kind of exception, or the answer to the public stop.", "quantifier": "for every message, version number and answer", "why_tests_cant": "Messages range over all strings; that no two collide after escaping is a statement about all pairs.", "anchors": ["src/exception.rs: 10-58", "src/robot/robot_impl.rs: 40-90", "src/robot.rs: 501-556", "src/gripper.rs: 181-192", "src/robot.rs: 1069-1079"]}
