# Design

The subject is `marcbone/libfranka-rs` in `/repo` (read as text, never built).
All model definitions and proofs are in `rocq/theories`, Coq 8.16.1.

## Method

* The model is written by hand, function by function, as small total Gallina
  functions. Each model definition cites the file and lines it mirrors and
  states its simplifications.
* A Rust panic is an explicit outcome (`Panic`), an error result is `Fail e`,
  a call which never returns because the peer sends nothing more is `Blocked`.
* Loops which end because input ends are structural recursions over the input
  (the schedule of arrivals); the control loop runs on a schedule, and ending the schedule
  means `Blocked`, so there is no artificial bound.
* The network is a nondeterministic environment: every theorem quantifies over
  all arrival schedules. User callbacks are Section variables with arbitrary
  state, hence theorems hold for all callbacks.
* Numeric code is written over a record of operations and instantiated twice:
  at the real numbers `R` (ideal arithmetic) and at Flocq's IEEE-754
  `binary64` (exact semantics, round to nearest even, Rust `min`/`max`).
  Theorems say which one they are about.
* Statements are made against small separate specifications (byte offsets,
  lists of messages, sorted lists, inequalities over R), not against the
  model's own helper functions.
* A claim that the faithful model violates is proved as `<name>_refuted` with
  a concrete witness; the strongest true variant is proved next to it.

## Files

| file | content | mirrors |
|---|---|---|
| Bytes.v, Codec.v | little-endian integers, codec combinators, bincode subset | bincode 1.3 as used in network.rs 392-398 |
| WireModel.v, WireSpec.v, WireProofs{,2,3}.v | all message types; byte offsets as specification | robot/types.rs, robot/service_types.rs, gripper/types.rs |
| TcpModel.v, TcpSpec.v, TcpProofs.v, TcpLive.v, TcpMore.v | stream reassembly, edge-triggered readiness, blocking read | network.rs 141-248, 318-386 |
| UdpModel.v, UdpSpec.v, UdpProofs.v | datagram receive and drain | network.rs 249-316 |
| ErrorsModel.v | error flags and their text | errors.rs, error.rs, types.rs 170-189 |
| LoggerModel.v, LoggerProofs.v | ring log; what `flush` returns after any use | logger.rs |
| RobotModel.v | RobotImpl over a schedule of network events, status handlers, control exceptions | robot_impl.rs, robot.rs |
| LoopModel.v | ControlLoop, the calls of the public API | control_loop.rs, robot.rs |
| RobotSpec.v, RobotProofs.v, RobotWp.v, LoopProofs.v, Effects.v, RobotMore.v, RobotCalls.v, RobotScenario.v | trace specification (`lawful`), invariants, effect bounds, runs for the examples | — |
| StatusSpec.v, StatusProofs.v | tables of status bytes and their meaning | robot_impl.rs 40-90, robot.rs 1069-1079 |
| LogSpec.v, LogProofs.v | which pairs a trace contains; what the log holds | robot_impl.rs 416-496 |
| GripperModel.v, GripperProofs.v | gripper API | gripper.rs |
| NumOps.v, NumReal.v, NumFloat.v, FloatFacts.v, SizeFacts.v, PiBounds.v | record of numeric operations, its instances R and binary64, rounding facts, absence of overflow, bounds of pi | f64 |
| RateModel.v, RateSpec.v, RateReal.v, RateCart.v | rate limiters and low-pass filter over any numeric instance; facts over R | rate_limiting.rs, low_pass_filter.rs |
| Properties_Nearest.v | least alteration by the joint and torque limiters | — |
| ConvertModel.v, TypedModel.v | conversion of callback outputs into commands (finiteness, elbow, pose checks, filter, limiter), callbacks of the four motion types | control_types.rs, control_tools.rs 57-87, control_loop.rs 178-216 |
| Decoded.v, Outputs.v, TypedSpec.v, ConvertFacts.v, TypedProofs.v | every state comes from the decoder; what the conversion guarantees of every command in a trace | — |
| PoseReal.v | rotational part of the pose limiter in exact arithmetic | rate_limiting.rs 340-361 |
| IsometryModel.v, IsometryPose.v, IsometryReal.v | poses to unit quaternions, with the two nalgebra functions used written out; facts over R | utils.rs 11-21, rate_limiting.rs 305-361, low_pass_filter.rs 63-69 |
| ImpedanceModel.v | the torque controllers of two example programs and the channel between two robots, in exact arithmetic | examples/cartesian_impedance_control.rs, examples/mirror_robot.rs |
| ProgramModel.v | two example programs as a whole: grasping an object, consecutive motions with recovery | examples/grasp_object.rs, examples/generate_consecutive_motions.rs |
| LibraryModel.v | loading the model over a connection and through the file system; two example programs which do | robot_impl.rs 233-244, network.rs 172-197, library_downloader.rs 23-43, examples/download_model.rs, examples/print_joint_poses.rs |
| MotionPrograms.v | five example programs with one motion, as a whole | examples/generate_joint_position_motion.rs, generate_joint_velocity_motion.rs, generate_cartesian_pose_motion.rs, generate_cartesian_velocity_motion.rs, generate_elbow_motion.rs |
| CommPrograms.v | communication_test and echo_robot_state as a whole | examples/communication_test.rs 21-108, echo_robot_state.rs 17-30 |
| ImpedanceProgram.v | cartesian_impedance_control as a whole; the arithmetic of its spring is a parameter | examples/cartesian_impedance_control.rs 26-114 |
| MirrorProgram.v | mirror_robot as a whole: two robots, the threads of the program and its channel; the arithmetic of its torques and the arrival in time are parameters | examples/mirror_robot.rs 33-157 |
| TorqueCalls.v | (facts on a torque motion which is never declared finished) | |
| TwistFloats.v, TwistProofs.v, Properties_Twist.v, Properties_PoseCommands.v | rounding errors of norms, unit vectors and one step of the Cartesian velocity limiter | rate_limiting.rs 429-464 |
| AcceptProofs.v | which outputs pass filter and limiter without a non-finite number | control_types.rs, rate_limiting.rs |
| StateModel.v | the user's robot state: field copies, total mass, centre and inertia | robot_state.rs 14-439 |
| MotionModel.v, MotionProofs.v | joint motion generator; calculus of its velocity profile | utils.rs 32-190 |
| JointMotionModel.v | `joint_motion` as a control call | robot.rs 1040-1048 |
| MotionFloats.v, MotionPlan.v, MotionTune.v, MotionValues.v, MotionRun.v | the generator in binary64: error bounds of the plan, of the commands, successive calls | — |
| MotionProfile.v, MotionClose.v | a smooth profile over the reals; the commands in binary64 stay within 2e-12 rad of it | — |
| NoBlame.v, ReplaySpec.v, ReplayProofs.v | successive callback calls and their outputs; nothing but a callback panics with a callback's panic | control_loop.rs 131-216 |
| CallFacts.v, ExampleModel.v, Properties_Examples.v | the calls of one control call; two example programs | examples/communication_test.rs, examples/echo_robot_state.rs |
| JerkShape.v, Properties_JointCommands.v | differences of the generator's profile; what joint_motion sends | src/utils.rs, src/robot.rs 1040-1048 |
| ExampleMotions.v, Waves.v, Properties_ExampleMotions.v, Properties_ExampleCommands.v, Properties_TwistCommands.v, PoseArc.v, Properties_CircleCommands.v | the motions of six example programs, for any arithmetic; differences of A(1-cos x) | examples/generate_*.rs |
| ExceptionModel.v, Properties_Exception.v | what exceptions print | exception.rs 10-58 |
| LiveUdp.v, LiveSpec.v, LiveProofs.v | a robot which does its part; every call then returns `Ok` | — |
| ModelApi.v | model queries over a table of library routines; model file | model.rs, model_library.rs, library_downloader.rs, robot_impl.rs 233-244 |
| Tests_Repo.v | the repository's own unit tests, computed on the model (tests, not theorems) | tests of utils.rs, low_pass_filter.rs, robot_state.rs, network.rs, robot.rs, gripper.rs |
| Properties_*.v | the headline theorems with `Print Assumptions` and Examples | — |

## Per property: what is modelled and how it is proved

| id | model | method |
|---|---|---|
| C01 | command counter + header construction + send log | induction over the request sequence; wrap at 2^32 explicit |
| C02 | TCP byte stream, kernel buffer, ready flag, partial message, blocking read as a separate program point | invariant: delivered messages ++ partial ++ kernel buffer ++ future bytes = stream, over all step sequences |
| C03 | same | expected to be refuted (two messages in one arrival event); partial: delivery when each message has its own event |
| C04 | same | expected to be refuted; characterise exactly when the check blocks |
| C05-C08 | codec combinators over records | generic round-trip theorem for combinators; independent byte-offset specification per field |
| C09-C10, C13 | datagram queue, ready flag, receive buffer overlay | induction over queue; expected refutation for mixed sizes |
| C11-C12 | RobotImpl receive functions over a schedule | monotonicity invariant; expected refutation of "greatest" under reordering, proof for in-order |
| C14-C20, C22-C23 | RobotImpl + control loop with trace of effects | invariants over the run relation / structural induction over the schedule |
| C21 | control loop construction with oracle for the kernel check | case analysis |
| C24-C26 | status tables, responses as bytes | finite case analysis over all bytes |
| C27 | torque limiter in binary64 | Flocq rounding error analysis, `Bplus_correct` etc. |
| C28-C32 | limiters at R | inequalities, induction over the request sequence; refutation witnesses |
| C28, C30, C31, C54, C62 in binary64 | joint, elbow, twist and pose limiters, conversions, commands in a trace | Flocq rounding error analysis of one step (`velocity_step`, `position_step`), invariant over histories |
| C33 | low-pass filter at R and at binary64; commands of motions without limiter | inequalities, geometric convergence; relative errors of each rounding, trace invariant of the outputs |
| C34-C35 | conversion functions at binary64 | case analysis on the finiteness checks |
| C51-C53 | conversion functions and the control loop's trace | invariant over histories: each command is the marked conversion of an output |
| C66 | constants of the limiters at binary64 | checked comparison of mantissas, sound by `below_ok` |
| C32, C33 for poses | limiter and filter at R with logarithm and slerp of PoseReal.v | a rotation matrix is determined by trace, axis and sense (`rod_unique`) |
| C54 | pose limiter at R; rotation functions as parameters (translation), Rodrigues matrix (rotation, PoseReal.v) | induction over the request sequence; the matrix is a rotation by the limited angular velocity |
| C36 | homogeneity check at R and binary64 | expected refutation; soundness of what is checked, completeness for exact rigid transformations |
| C37-C38 | ring logger, exception creation | list reasoning; expected refutations; exact content of the log for every history of the handle |
| C39 | error flags | list reasoning over 41 flags |
| C40 | inertia formulas at R | ring/field |
| C41-C43 | motion generator at R | calculus by hand (polynomials), nra |
| C56, C57, C58 | control loop with stateful callbacks | relation between traces and callback states, kept by every step of the loop; binary64 zero analysis |
| C59 | trace specification extended by the modes shown to the callbacks | invariant over the control loop |
| C60 | message-level calls as functions of poll outcomes (`mcall`), byte-level client of TcpModel.v | forward simulation with the list of completed polls as ghost state; content of the polls from the stream invariant of C02 |
| C61 | `cooperates`, `serves`, `session`: what the robot sends (LiveSpec.v); `emptied`, `burst`, `polled`: arrivals at any moment (LiveUdp.v); `cycle`, `finishes`: the callbacks without the monad | symbolic execution of each call under a record of the state (`now`, `did`), induction over the states of each phase |
| C63 | `control` of the typed calls | requests of every outcome of the call; values of the deviation bit patterns |
| C64 | all response codecs; byte offsets and protocol numbers as specification | codec laws, uniqueness of a tiling layout |
| C65 | conversion of outputs in binary64; `sound`, `good_output`, `behaves` as specification | size bounds through filter and limiter (no overflow, no invalid operation), composition with C61 |
| C68 | `gserves`, `gsession`: what the gripper sends; `meaning` of a status | symbolic execution of each call, induction over queued states and over the calls |
| C69 | `missed`, `rates`, `faithful`: what the report should say, from the calls alone | replay of the callback over spaced calls (C18_one_call), C56_callback_panic, C61 for success |
| C70 | curves written with cos and integer milliseconds; `lagging`: the filtered curve; `easy`, `calm`: bounds of the differences | sum formulas for cos; C32 for the limiter; filtering is a convex mixture, so the bounds survive it; for twists and poses, an error bound kept by the filter (each step adds at most 2 T 2^-52, the filter takes the share g away) |
| C71 | `nowhere_farther`: distances to the request, joint by joint; conditions of the limiter as inequalities (`respects`) | two clamps to intersecting intervals are the projection to their intersection; invariant of C29 for existence |
| C72 | `turns`: matrix times direction; `quaternion_turns`: q v q*; `turned_about`: Rodrigues' formula | products of two quaternion components are entries of the matrix; rounds of the iteration commute, its angle contracts by 0.4 per round below a quarter turn; series bounds up to 1.8 rad; intermediate value theorem for the cycle; computation for half turns |
| C73 | `velocity_of`, `power`, `spring_energy`; angle and axis between two orientations; `across`: the reflection; `received`: poses by counting | identities of quaternions; derivative of the energy along a motion; Penrose's equations; invariant of the queue |
| C74 | `grasp_spec`: requests as a prefix of the whole list, what was read before each; `ends`: the end from the answers alone; `consecutive_spec`: rounds of requests, `told`: the commands from the clock | case analysis along the program; induction on the rounds; with the sessions of C61 and C68 for the live part |
| C75 | `load_spec`, `download_spec`, `print_spec`: requests, the file before and after, where the loaded bytes come from; poses by the name of the routine | case analysis along the calls; agreement with the life cycle of C46; sessions of C61 for the live part |
| C76 | `prior`, `plan`, `plan_over`: settings, commands and duration with the numbers as bit patterns; `opened`, `approached`, `made`, `timely`; `plays`, `reports`, `accepted` for the robot's part | the closures against the plan at the sums of the time steps; error of these sums (ClockFacts.v); acceptance of C65, sessions of C61 |
| C77 | `comm_spec`: requests, zero torques, `measured` report; `echo_spec`: states `displayed` | first half of C76, the callback of C69, sessions of C61 |
| C78 | `impedance_spec`: requests, then one motion whose commands are `springy` | loading as in C75, replay of the torque callback as in C56 |
| C79 | `mirror_spec`: the requests to both robots in order; the way home (`homewards`); torques (`torque_command`, `reflected`) for the poses that came through the channel (`channel`) | the control call on any handle (TorqueCalls.v), replay of the callback, induction over its calls |
| C80 | `lasts`: duration, from the completion reports; `jerk_small`: condition on distance, duration and speed factor | mean values for differences of the glued profile, Lipschitz bound of its acceleration; C32 for the limiter |
| C81 | `carries`: the message of an exception; `in_line`, `plain`: ranges of characters; texts as strings | no escape is a prefix of another (all 256 x 256 pairs computed), induction over the message; decimal numerals contain no space |
| C67 | motion generator at binary64; `joint_motion` as user control | relative error bounds through the plan (`rel`, `relm`), separation of the discriminant from its rounding error, closeness to a smooth profile (Taylor bounds of its ramp), then C65/C61 |
| C55 | conversion of the decoded state | byte offset specification of C05 applied to each field |
| C44-C45 | model API with the shared library as oracle | case analysis |
| C46, C49 | file system map, TCP model | case analysis; expected refutation of the life cycle |
| C47-C48, C50 | API sequences over the same network models | induction over replies/schedule |

Not expressible here: nothing in the list is excluded; real time behaviour
(1 kHz deadlines), scheduler priority and the contents of the proprietary
model library are outside every model.

## Findings

Defects of the source which follow from the faithful model. Each is proved
where a theorem is named.

Network:
* Two responses arriving together: the second stays in the kernel buffer until
  something else arrives (`C03_..._refuted`); messages longer than the 70000
  byte peek window never complete (C03, C49).
* The "non-blocking" response check blocks exactly when a header has arrived
  and its body has not (C04).
* Request ids wrap after 2^32 requests and collide with outstanding ones
  (`C01_exhaustion`).
* A short UDP datagram after a full one in the same drain overwrites the head
  of the receive buffer: the caller gets a mixture of both (C09). The content
  is that of the last datagram, the reply address that of the first (C10).
* A response header with an unknown command code or a size below that of the
  header itself panics the receiving thread (`C02_bad_header`).
* Two states waiting in the wrong order: the older is returned (`C12_freshest_refuted`).

Motion start, end and stop:
* A start rejected by the robot leaves the requested modes set, so a later
  command is accepted locally (`C23_rejected_start`).
* `cancel_motion` panics when the stop is rejected and never returns when no
  more states come; `start_motion` on a running robot panics;
  `throw_on_motion_error` panics on a Success reply.
* When the motion callback finishes, the torque callback is not called any
  more: the last torques are sent again during the whole finishing phase.

Errors and log:
* An empty error set prints as `[` without `]` (`C39_text_refuted`).
* The log is rotated when more commands than its size were sent and the size
  does not divide their number (`C37_order_refuted`).
* The log keeps records of earlier motions and returns them for later ones
  (`C37_stale_refuted`); its buffers grow by up to `size` entries per motion.
  If the earlier motions left at least as many pairs as the failed motion sent
  commands, the log holds no record of the failed motion (`C37_only_old`).
* As a consequence a reflex can make the library panic by a Duration underflow
  instead of returning the exception (`C38_panic_refuted`). This happens only
  if n > size and n = 1 mod size (`C38_no_panic_partial`), and then always
  (`C38_reflex_lost`).
* Log size 0 panics at the first command (`C38_size_zero_refuted`).
* The printed success rate is multiplied by 1 - lost/100, which is negative
  for more than 100 lost packets.

Rate limiting:
* The joint velocity limiter breaks the jerk limit when the reported velocity
  is close to its limit and the reported acceleration still points outwards
  (`C29_jerk_refuted`). This cannot happen in a motion that starts at constant
  velocity and whose reports are the limiter's own outputs (`C29_jerk_partial`).
* The Cartesian limiter takes the square root of a negative number when the
  last speed is over the library's limit. `f64::min` ignores the NaN, so the
  velocity limit is not enforced at all, and the robot's limit can be exceeded
  from a start below it (`C31_range_refuted`).
* The same happens from rest, with a robot that reports exactly what it was
  sent: rounding puts the saturated speed one unit in the last place over the
  library's limit, and a request across the motion then passes 2 m/s
  (`C31_rest_refuted`). One billionth below the library's limit no step leaves
  the robot's limits (`C31_commands`).
* Requests within all limits are altered near the velocity limit
  (`C32_joint_velocities_refuted`).
* The low-pass filter accepts a cutoff frequency of +0 (documented to panic)
  and then ignores the request (`C33_zero_cutoff_refuted`). A NaN or +infinite
  frequency is not refused either: the callers skip the filter because
  `cutoff < 1000` is false (`C33_only_below_maximum`).
* Rounding makes the filter move a constant request: 1.3 becomes
  1.2999999999999998 (`C33_equal_refuted`).
* The pose check accepts reflections and matrices with parallel columns, and
  such poses are sent to the robot (`C36_reflection_refuted`,
  `C36_orthogonal_refuted`, `C36_commands_refuted`).
* `array_to_isometry` returns no rotation at all for an orientation which is
  exactly half a turn away from the base frame, as a gripper pointing straight
  down is (`C72_half_turn`, `C72_orientation_refuted`): nalgebra 0.23 looks for
  the rotation by an iteration which starts at the identity and stops there
  when the matrix is symmetric. The pose limiter and the pose filter then turn
  the request "stay" of an arm at rest into half a turn within a millisecond
  (`C72_limiter_half_turn`, `C72_filter_half_turn`; in binary64
  `C72_limiter_binary64_refuted`). The iteration reaches its goal from up to
  1.8 rad away (`C72_orientation_partial`); for an angle just above that it goes
  to and fro for ever and returns twice the rotation (`C72_cycle_refuted`, in
  exact arithmetic). nalgebra is not part of the repository; its
  iteration is modelled from its published source (IsometryModel.v).

Joint motions (`utils.rs`):
* A call sequence whose first period is not 0 never initialises the generator:
  it commands all zeros and reports completion (`C41_first_period_refuted`).
  The control loop's first period is 0, so `joint_motion` is not affected.
* A speed factor of 0 makes the first command the goal itself
  (`C41_zero_speed_refuted`); its documented range is not checked.
* A joint with exactly 1e-6 rad to go is set to its goal at once
  (`C41_jump_refuted`).
* At full speed the jerk of a motion over a few microradians is over the limit
  of the second joint, so that the limiter alters it (`C80_short_refuted`). Up
  to a speed factor of 0.37, or if every joint that moves has some way to go,
  the limiter never alters a motion (`C80_joint_motion_commands`).
* The common time is least only among motions of the generator's own shape
  (`C43_least_refuted`).

Exceptions (`exception.rs`, `robot.rs`):
* Network, command, model and real-time exceptions print only their message, so
  that the text does not tell which of them it is (`C81_kind_refuted`).
* The public `stop` reports an aborted stop as "command not possible in current
  mode" (`C81_stop_reason_refuted`); motions, setters and the error recovery have
  a text of its own for each answer.

Torque control:
* The zero velocity of `control_torques` goes through filter and limiter, so an
  arm reporting desired velocities is sent velocities other than zero
  (`C57_moving_refuted`).

Example programs:
* In `mirror_robot.rs` the mirroring robot never catches up: it takes one pose
  per cycle from a queue, so every pose it was late for delays it for good
  (`C73_lag`). Until the first pose arrives it steers to the pose the guided
  robot had before both robots moved to their start (`C73_channel`).
* `grasp_object.rs` goes on after an unsuccessful homing or grasp: the booleans
  are dropped, only Fail and Aborted end it (`C74_grasp_live`). A width of NaN
  passes the check of the size (`C74_not_a_number`).
* In `generate_consecutive_motions.rs` a motion broken by a reflex is not made
  up for: it counts as one of the five, and the next starts from time 0
  (`C74_consecutive`).

Robot model:
* `coriolis_from_state` passes the inertia of the load, not the total
  (`C45_refuted`). With an end effector and nothing grasped it passes zero.
* A non-persistent `load_model` keeps the file it has downloaded and deletes a
  file that was there before: the condition is inverted (`C46_inverted`).
* The library is written with one `write`, whose count is ignored. A short
  write leaves a truncated file; every later load uses it and fails
  (`C46_short_write_refuted`, `C46_stuck`). Whatever lies at `/tmp/model.so` is
  loaded without asking the robot (`C46_existing`).
* `download_model.rs` with the directory `/tmp` copies the library onto itself:
  it reports success and leaves the file empty (`C75_same_directory`), and
  every later load fails without asking the robot (`C75_spoilt`). With another
  directory it may copy the library of another robot left there before
  (`C75_download`).
* `print_joint_poses.rs` asks for the library in every other run
  (`C75_alternates`), a consequence of the inverted condition.
- With a state every millisecond the velocity, pose and elbow programs end 1 ms
  later than the duration they state, the position and twist programs do not:
  the sum of 2000 or 10000 times 0.001 in binary64 is less than 2 or 10
  (`C76_every_ms`).
- `echo_robot_state.rs` prints 101 states, not 100: the counter is compared
  after it was increased, with `<=` (`C77_echo`).
* cartesian_impedance_control prints the error of its control call and ends
  with `Ok`. Its closure never finishes, so it can end with `Ok` in no other
  way (`C78_impedance`: never `Done None`).
- mirror_robot never ends with `Ok` either (`C79_mirror`: never `Done tt`).  It reads the pose to be mirrored (lines 66-68) before both robots
  move to the start position (lines 81-88), so that until the first pose arrives the mirroring robot is pulled towards where the user's robot
  was before that motion (`C79_ex_reflex`).  Each call takes at most one pose from the channel (`channel`: `age (S n) <= S (age n)`), and
  both loops run at the same rate, so that a delay between the two robots, once there, stays.

Tests of the repository:
* The fifth entry of the expected inertia in `combine_com_test` is wrong for
  its data; the test compares the first three entries only
  (`test_combine_com`).

## Trusted base

* Coq's kernel (and `coqchk`).
* Standard library axioms reported by `Print Assumptions`, listed per theorem at the end of this file.
* The hand-written model: it is tied to the source by citations only.
* Semantics assumed of the dependencies: bincode 1.3 default configuration
  (little-endian, fixed-width integers, no length prefix for arrays, trailing
  bytes ignored), serde_repr (unknown discriminants are errors), mio 0.7
  (edge-triggered epoll readiness; `TcpStream::from_std` leaves the socket
  blocking; UDP sockets non-blocking), IEEE-754 binary64 without fused
  operations, nalgebra's documented matrix operations
  and the two conversions of nalgebra 0.23 written out in IsometryModel.v.

## Assumptions per theorem

`Print Assumptions` of every theorem of the Properties files.

* **none (closed under the global context)**: `C05_state_decoding_exact`, `C05_state_accepted_iff`, `C06_request_layout`, `C06_request_injective`, `C07_command_layout`, `C07_command_injective`, `C07_command_decoding_exact`, `C08_gripper_request_layout`, `C08_gripper_request_injective`, `C08_gripper_state_decoding_exact`, `C01_robot_ids`, `C01_gripper_ids`, `C01_exhaustion`, `C02_responses_exact`, `C02_bad_header`, `C03_delivery_refuted`, `C03_coalesced_never_delivered`, `C03_long_never_delivered`, `C03_delivery_partial`, `C04_check_nonblocking_refuted`, `C04_check_blocks_iff`, `C04_check_nonblocking_partial`, `C49_download_exact_partial`, `C49_download_refuted`, `C09_received_content`, `C09_single_datagram_partial`, `C09_single_datagram_refuted`, `C09_outcome`, `C10_reply_address_partial`, `C10_reply_address_refuted`, `C13_timeout_iff_silence`, `C13_no_lost_wakeup`, `C50_gripper_read_fresh`, `C50_gripper_read_one_state`, `C50_gripper_read_no_panic`, `C11_states_increase`, `C11_read_returns_shown`, `C11_torque_states_shown`, `C12_freshest_partial`, `C12_freshest_refuted`, `C14_command_echoes_newest`, `C14_ids_increase`, `C15_admission`, `C15_refused_when_idle`, `C15_torques`, `C16_one_command_per_state`, `C16_state_before_command`, `C17_finished_flag`, `C17_fresh_values`, `C17_until_stopped`, `C18_time_step`, `C18_steps_add_up`, `C18_step_never_fails`, `C19_motion_then_torque`, `C19_none_after_completion`, `C19_both_called`, `C59_callbacks`, `C59_commands`, `C20_stop_before_error`, `C20_requests_of_control`, `C21_enforce`, `C21_enforce_priority`, `C21_ignore`, `C22_start_sends_one_request`, `C22_start_confirmed`, `C22_control_start`, `C23_after_success`, `C23_after_loop_error`, `C26_version`, `C26_handle`, `C47_defaults`, `C48_read_loop`, `C12_exact`, `C12_last_of_burst`, `C24_setter`, `C24_stop`, `C24_recovery`, `C24_wall`, `C24_move`, `C24_start`, `C24_loop_stop`, `C24_cancel`, `C24_motion_error`, `C24_finish`, `C64_move_response`, `C64_stop_response`, `C64_setter_response`, `C64_recovery_response`, `C64_library_response`, `C64_connect_response`, `C64_wall_response`, `C64_gripper_response`, `C64_gripper_connect_response`, `C64_wall_returned`, `C25_actions`, `C25_status`, `C25_history`, `C26_gripper`, `C50_gripper_handle`, `C39_exact`, `C39_every_flag`, `C39_contains`, `C39_text_partial`, `C39_text_refuted`, `C37_log_partial`, `C37_every_handle`, `C37_only_old`, `C37_first_motion`, `C37_order_refuted`, `C37_stale_refuted`, `C38_no_panic_partial`, `C38_reflex_lost`, `C38_from_log`, `C38_statistics`, `C38_panic_refuted`, `C38_size_zero_refuted`, `C44_loading`, `C44_frames`, `C44_dynamics`, `C46_persistent`, `C46_inverted`, `C46_existing`, `C46_stuck`, `C46_failed`, `C46_refuted`, `C46_short_write_refuted`, `C56_threaded`, `C56_callback_panic`, `C56_function_of_states`, `C48_read_once_fresh`, `C48_read_once_one_state`, `C60_refines`, `C60_robot_wait`, `C60_robot_check`, `C61_control`, `C61_session`, `C61_connect`, `C68_session`, `C68_connect`, `C18_one_call`, `C69_echo`, `C73_channel`, `C73_lag`, `C77_echo`, `C77_echo_live`, `C81_message`, `C81_one_line`, `C81_plain`, `C81_answers`, `C81_reason`, `C81_stop_reason_refuted`, `C81_gripper`, `C81_versions`, `C81_kind_refuted`
* **`ClassicalDedekindReals.sig_forall_dec`, `ClassicalDedekindReals.sig_not_dec`, `Classical_Prop.classic`, `FunctionalExtensionality.functional_extensionality_dep`**: `C27_torque_rate`, `C31_range_refuted`, `C28_joint_velocity_float`, `C30_joint_position_float`, `C34_only_finite_numbers`, `C35_elbow_valid`, `C51_unused_fields_zero`, `C35_elbow_follows_output`, `C52_commands_encodable`, `C53_sent_verbatim`, `C27_commands`, `C53_torques_verbatim`, `C28_commands`, `C30_commands`, `C62_elbow_commands`, `C33_between_float_partial`, `C33_refuses`, `C33_zero_cutoff_refuted`, `C33_equal_refuted`, `C33_only_below_maximum`, `C33_first_order_float`, `C33_commands`, `C33_torques`, `C36_binary64`, `C36_commands`, `C36_commands_refuted`, `C55_fields`, `C41_continuous`, `C42_commands`, `C43_together`, `C43_least_partial`, `C41_zero_speed_refuted`, `C44_states`, `C45_refuted`, `C45_partial`, `C57_no_motion`, `C57_no_motion_once`, `C57_request`, `C57_moving_refuted`, `C58_samples`, `C58_ends`, `C58_request`, `C57_until_finished`, `C63_request`, `C58_seconds`, `C65_accepted`, `C65_torques_accepted`, `C65_not_finite_refused`, `C65_elbow_refused`, `C65_control`, `C31_doubles`, `C31_commands`, `C31_rest_refuted`, `C32_poses_partial`, `C33_pose_rotation`, `C54_doubles`, `C54_commands`, `C66_constants`, `C67_generator`, `C67_speed`, `C67_acceleration`, `C65_given`, `C67_ends`, `C67_joint_motion`, `C69_statistics`, `C69_no_panic`, `C69_succeeds`, `C70_joint_position_limits`, `C70_joint_velocity_limits`, `C70_elbow_limits`, `C70_pose_circle`, `C70_pose_speed`, `C70_joint_position_commands`, `C70_joint_velocity_commands`, `C70_elbow_commands`, `C70_twist_commands`, `C80_joint_motion_commands`, `C70_pose_commands`, `C72_orientation_partial`, `C72_cycle_refuted`, `C72_limiter_half_turn`, `C72_limiter_refuted`, `C72_filter_half_turn`, `C72_limiter_binary64_refuted`, `C73_apart`, `C74_grasp_object`, `C74_width`, `C74_not_a_number`, `C74_grasp_live`, `C74_consecutive`, `C74_start_position`, `C74_consecutive_live`, `C75_load`, `C75_refines`, `C75_download`, `C75_same_directory`, `C75_spoilt`, `C75_print`, `C75_alternates`, `C75_load_live`, `C75_download_live`, `C75_print_live`, `C76_every_ms`, `C76_program`, `C76_live`, `C76_ends`, `C76_succeeds`, `C77_communication`, `C77_communication_live`, `C78_impedance`, `C78_live`, `C79_mirror`
* **`ClassicalDedekindReals.sig_forall_dec`, `ClassicalDedekindReals.sig_not_dec`, `FunctionalExtensionality.functional_extensionality_dep`**: `C28_joint_velocity`, `C29_jerk_partial`, `C29_jerk_refuted`, `C30_joint_position`, `C29_position_jerk`, `C31_cartesian_velocity`, `C32_torques`, `C32_joint_velocities_partial`, `C32_joint_positions_partial`, `C32_joint_velocities_refuted`, `C32_cartesian_velocities_partial`, `C33_between`, `C33_first_order`, `C33_monotone`, `C33_converges`, `C36_accepted`, `C36_rigid_accepted`, `C36_reflection_refuted`, `C36_orthogonal_refuted`, `C54_pose_translation`, `C54_pose_rotation`, `C40_composed`, `C40_parallel_axes`, `C40_one_part`, `C40_nothing`, `C41_sampled`, `C41_start`, `C41_end`, `C41_jump_refuted`, `C41_first_period_refuted`, `C42_limits`, `C43_least_refuted`, `C44_stiffness`, `C70_joint_positions`, `C70_joint_position_returns`, `C70_joint_velocities`, `C70_joint_velocity_returns`, `C70_elbow`, `C70_elbow_returns`, `C70_pose`, `C70_pose_returns`, `C70_twist`, `C70_twist_speed`, `C70_twist_returns`, `C80_short_refuted`, `C71_nearest_velocity`, `C71_unaltered`, `C71_monotone`, `C71_nearest_position`, `C71_closed_loop`, `C71_nearest_torques`, `C72_quaternion`, `C72_half_turn`, `C72_orientation_refuted`, `C72_unit`, `C73_wrench`, `C73_half_angle`, `C73_equilibrium`, `C73_passive`, `C73_mirror`, `C73_impedance`, `C73_mirror_torques`
* **`ClassicalDedekindReals.sig_forall_dec`, `FunctionalExtensionality.functional_extensionality_dep`**: `C73_nullspace`, `C73_homewards`
