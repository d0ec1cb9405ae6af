# Formal model of dadada/ns-3-leo — design

Everything below is about the sources in `/repo` (read only, never built here).
The model is Gallina, Rocq/Coq 8.16.1, in `rocq/theories`.

## Layout

| kind | files | rule |
|------|-------|------|
| arithmetic and vectors | `Num.v`, `NumR.v`, `Num64.v`, `Vec.v` | one record of double operations, two instances |
| outcomes | `Base.v` | `Ok`, `Abort`, `UB` |
| models | `*Model.v` | definitions only, each citing the `/repo` lines it models |
| specifications | `*Spec.v` | small definitions written from the English property, not from the model |
| proofs | `*Proofs.v`, `NetSteps.v`, `NetInv.v` | lemmas |
| examples | `NetExamples.v` | concrete networks used beside the theorems |
| property theorems | `Prop*.v` | the theorem, an `Example` meeting its hypotheses, `Print Assumptions` |

`properties.jsonl` holds the English statements, `MANIFEST.json` the theorems of
each property, `seeded/LOG.jsonl` the wrong programs the theorems were tried on.

## Numbers

Every function of the code that computes with `double` is defined once, over a
record `Num` of operations (`+ - * / sqrt sin cos tan fabs fmin <`, literals,
`M_PI`). `Num` is a plain record, not a module type. Two instances are used:

* `NumR`: Coq reals. `M_PI` is `PI`, decimal literals are exact, nothing is
  rounded. This is the *exact arithmetic* of the property list.
* `Num64`: IEEE-754 binary64 of Flocq (`BinarySingleNaN`), round to nearest
  even, NaN and infinities included. `sin`, `cos`, `tan` come from libm and are
  arbitrary functions (record parameters) there. Only C75 to C83 and C87 assume
  something about them: `Float64Spec.accurate`, an explicit hypothesis of those
  theorems, asks for absolute errors of at most 2^-52, and for the tangent
  (`accurate_tan`, C78) for an absolute and relative error of that size up to 1.56.

Discrete parts (devices, channels, allocators' counters, files, helpers) do not
depend on rounding; where they carry a power they are parametric in `Num`, so
that their theorems hold for binary64 too. (The examples use a third, trivial
instance over `Z`.)

## Undefined behaviour and assertions

Partial operations of the code return a `res`: `Ok`, `Abort` (an `NS_ASSERT`,
`NS_ABORT` or fatal error), or `UB` (undefined behaviour: null dereference,
index out of range, remainder by zero, signed overflow, read of an
uninitialised variable). `NS_ASSERT` is modelled as enabled (debug build).

## Executions

* A satellite (`MobilityModel.v`) is a state with a clock, a list of pending
  `Update` events and counters; a history is a list of calls and clock advances,
  and `reached` relates a history to the states it can lead to.
* A network (`NetModel.v`) is a function from numbers to devices and channels, a
  clock, a time-ordered list of events, and a log of observations (sends,
  transmissions, trace hits, channel calls, deliveries, callbacks). Operations are
  the public calls in any order with any arguments, and running the next event;
  an execution is any list of operations. All `Net` theorems quantify over all
  executions, without a bound on the number of devices, channels or steps.
* Helpers (`HelperModel.v`) are lists of configuration calls followed by `Install`,
  which is a program of network operations.
* Readers (`WaypointModel.v`, `ParseModel.v`) are functions of the file's contents,
  without a bound on its length.

## Trusted base

* Coq's kernel (8.16.1), and `vm_compute`, which a part of the examples and of the
  preset computations uses.
* The axioms printed by `Print Assumptions` after every theorem. No axiom is
  declared here; those used are axioms of the standard library:
  * group *reals*: `ClassicalDedekindReals.sig_forall_dec`,
    `ClassicalDedekindReals.sig_not_dec`,
    `FunctionalExtensionality.functional_extensionality_dep`
    (the definition of Coq's reals);
  * group *classical*: the three above and `Classical_Prop.classic` (through Flocq
    and through the derivatives of Coquelicot).
* The libraries Flocq and Coquelicot are used for definitions and lemmas; they add
  no axiom of their own to any theorem.
* That the model says what the code does: the definitions cite the lines they
  model and the next two sections list what is left out.
* That ns-3, libstdc++ and the compiler behave as modelled (listed below).

320 theorems; 190 without axioms, 66 with the axioms of the reals, 64 with those and classical logic.

No axioms:

  `C07_bounded_staleness`, `C07_no_update_without_call`, `C07_toggled_precision_refuted`, `C08_zero_precision_exact`,
  `C09_notifications`, `C10_construction`, `C10_histories`, `C15_circular_failure`,
  `C15_polar_failure`, `C15_circular_calls`, `C15_polar_calls`, `C17_last_meridian`,
  `C23_isl_power_any`, `C27_two_results`, `C29_frame_round_trip`, `C30_frame_size`,
  `C31_oversize_misparsed`, `C31_mtu_refuted`, `C32_length_wrap`, `C33_transmit_assertions`,
  `C34_busy_iff_pending`, `C35_accepted_in_order`, `C35_reference`, `C36_no_overlap`,
  `C36_begin_times`, `C36_durations`, `C37_send_result`, `C37_other_destination`,
  `C37_no_queue`, `C38_destination_of_period`, `C38_single_destination`, `C38_own_destination_refuted`,
  `C39_receive_table`, `C39_receive_total`, `C40_trace_sources`, `C40_no_sniffer_on_reception`,
  `C40_tx_drop`, `C41_opposite_sides`, `C41_receivers`, `C41_address_change_refuted`,
  `C41_members`, `C42_leo_result`, `C43_isl_unicast`, `C44_isl_broadcast`,
  `C45_isl_unknown`, `C46_reception_delay`, `C46_receptions_conserved`, `C46_order`,
  `C47_cut_off`, `C48_stable_indices`, `C48_attach_index`, `C49_isl_detach`,
  `C49_isl_still_receives`, `C49_leo_detached_silent`, `C49_leo_detach`, `C50_address_changed`,
  `C50_detach_leaves`, `C50_still_receives`, `C51_integrity`, `C52_not_itself`,
  `C53_never_fails`, `C55_complete`, `C55_negative_last_time`, `C55_missing_file`,
  `C56_exact`, `C56_cases`, `C57_install`, `C57_missing_file`,
  `C57_carried_over`, `C57_trajectories_refuted`, `C58_rewind`, `C58_rewind_none_later`,
  `C58_attribute`, `C58_file_attribute`, `C58_file_attribute_fresh`, `C59_location`,
  `C59_orbit`, `C59_ground_file`, `C59_orbit_file`, `C59_unique`,
  `C59_missing_file`, `C60_locations`, `C60_orbits`, `C61_arp_exact`,
  `C61_nd_exact`, `C61_arp_resolves`, `C61_nd_resolves`, `C61_same_index`,
  `C61_refuted`, `C62_presets`, `C62_unknown_name`, `C64_addresses`,
  `C64_leo_install`, `C64_isl_install`, `C64_types_refuted`, `C65_leo_channel`,
  `C65_channel_attributes_ignored`, `C65_isl_channel`, `C66_refused`, `C66_setters`,
  `C66_queue_refuted`, `C67_networks`, `C67_separate`, `C68_caches`,
  `C68_stack_once`, `C68_unresolved`, `C69_capture`, `C69_enable`,
  `C69_promiscuous_refuted`, `C70_own_file`, `C70_shared_stream`, `C70_no_queue`,
  `C70_once_refuted`, `C72_comes_to_rest`, `C72_helpers`, `C73_delivered`,
  `C73_end_to_end`, `C74_group_addresses`, `C74_group_addresses_refuted`, `C74_isl_drops`,
  `C74_leo_floods`, `C79_ticks`, `C79_negative_duration`, `C79_failures`,
  `C79_orbit_file`, `C79_missing_file`, `C79_columns`, `C83_received_only_if_heard`,
  `C84_configuration`, `C84_no_effect`, `C84_no_effect_of_interface`, `C84_read_back`,
  `C84_mtu_refuted`, `C85_disposed`, `C85_disposed_once`, `C85_dispose_call`,
  `C85_own_calls`, `C85_in_flight`, `C85_sending_to_disposed`, `C85_invisible`,
  `C85_detached`, `C85_at_rest`, `C85_isl_refuted`, `C85_error_model_refuted`,
  `C86_reported`, `C86_installed_twice`, `C86_aggregated_once`, `C86_initialize`,
  `C86_flow_refuted`, `C87_outcome`, `C87_nodes`, `C87_world`,
  `C87_never_fails`, `C87_placed`, `C88_order`, `C89_waiting`,
  `C89_default_room`, `C89_no_waiting`, `C89_slots`, `C89_throughput`,
  `C90_end_sink`, `C90_assertion_refuted`, `C91_relay`, `C91_latency`,
  `C91_store_and_forward_refuted`, `C94_rewrites`, `C94_again`, `C94_counter`,
  `C94_waiting`, `C94_ends`, `C94_retry_refuted`, `C96_lines`,
  `C96_set_up`, `C96_PhyRx_refuted`, `C96_sends`, `C96_receptions`,
  `C96_unreported`, `C96_file`, `C96_silent_refuted`, `C97_EchoRx`,
  `C97_delay`, `C97_ttl_refuted`, `C98_records`, `C98_count`,
  `C98_filter`, `C98_texts`, `C99_isl_names`, `C99_leo_names`,
  `C99_isl_missing`, `C99_leo_missing`.

Group *reals*:

  `C01_on_orbital_sphere`, `C02_in_orbital_plane`, `C02_bound_attained`, `C03_velocity`,
  `C06_attributes_read_back`, `C07_bounded_staleness_path`, `C08_zero_precision_path`, `C11_circular_enumeration`,
  `C12_round_distinct`, `C12_round_covers`, `C12_periodic`, `C13_polar_enumeration`,
  `C13_largest_latnum`, `C13_distinct_off_poles`, `C14_polar_on_sphere`, `C16_constellation`,
  `C16_failure`, `C16_success_iff`, `C17_ground_grid`, `C17_ground_grid_count`,
  `C17_poles_shared`, `C18_earth_position`, `C18_correct_latitudes`, `C18_equator_and_45`,
  `C18_geographic_refuted`, `C19_locations`, `C19_pair`, `C20_line_of_sight_exact`,
  `C20_below_ground_refuted`, `C21_line_of_sight_symmetric`, `C23_isl_power`, `C24_cutoff_closed_form`,
  `C24_cutoff_horizon`, `C24_cutoff_decreases_in_elevation`, `C24_cutoff_increases_in_altitude`, `C24_cutoff_even`,
  `C27_budget`, `C27_symmetric`, `C28_below_ground`, `C53_exact`,
  `C54_line_of_sight`, `C71_elevation_read_back`, `C79_trace`, `C79_csv_refuted`,
  `C80_positions`, `C80_isl_hears`, `C80_isl_delivery`, `C83_isl_receptions`,
  `C87_stations`, `C87_users_refuted`, `C87_islRate_refuted`, `C88_overtaking`,
  `C88_in_order`, `C88_same_period`, `C88_order_refuted`, `C90_reentrant`,
  `C90_at_once`, `C90_no_assertion`, `C92_plane`, `C92_links`,
  `C92_relay`, `C93_distinct_positions_refuted`, `C94_separate`, `C97_packets`,
  `C97_in_time`, `C97_every_interval_refuted`.

Group *classical*:

  `C04_velocity_vs_motion`, `C05_speed_law`, `C05_speed_decreases`, `C05_displacement`,
  `C06_altitude_binary64_refuted`, `C06_read_back_binary64`, `C06_inclination_binary64_refuted`, `C12_distinct_binary64`,
  `C21_line_of_sight_symmetric_binary64`, `C22_colocated_binary64`, `C25_mask_sound`, `C26_boundary_cut_off`,
  `C26_zenith`, `C26_exact_mask`, `C27_symmetric_binary64`, `C60_binary64`,
  `C60_short_total`, `C60_refuted`, `C63_links_close`, `C63_installed_links_close`,
  `C71_elevation_read_back_binary64`, `C71_elevation_binary64_refuted`, `C75_position_binary64`, `C76_velocity_binary64`,
  `C76_direction_binary64`, `C77_line_of_sight_binary64`, `C77_isl_link_binary64`, `C78_cutoff_binary64`,
  `C78_ground_link_binary64`, `C78_mask_sound_binary64`, `C79_trace_binary64`, `C80_staleness`,
  `C80_isl_true_positions`, `C80_ground_hears`, `C80_positions_binary64`, `C81_polar_binary64`,
  `C81_grid_binary64`, `C81_locations_binary64`, `C81_on_the_ground`, `C81_latitude_refuted`,
  `C82_isl_hears_binary64`, `C82_ground_hears_binary64`, `C83_ground_receptions`, `C83_isl_receptions_binary64`,
  `C83_ground_receptions_binary64`, `C83_isl_delivery_binary64`, `C83_ground_delivery_binary64`, `C87_receptions`,
  `C87_delivery`, `C87_receptions_binary64`, `C88_satellite_drifts`, `C88_constellation`,
  `C88_constellation_in_order`, `C93_plane`, `C93_polar`, `C93_station`,
  `C93_global`, `C93_high_latitude`, `C95_contact`, `C95_pass_ends`,
  `C95_same_satellite`, `C95_loses_contact`, `C95_persists`, `C97_doubles`.

## What is modelled

| code | model |
|------|-------|
| `model/leo-circular-orbit-mobility-model.{h,cc}` | `OrbitModel.v` (positions, velocities), `MobilityModel.v` (attributes, cached position, `Update` events) |
| `model/isl-propagation-loss-model.cc`, `model/leo-propagation-loss-model.cc` | `LossModel.v` |
| `model/leo-circular-orbit-position-allocator.cc`, `model/leo-polar-position-allocator.cc`, `helper/leo-orbit-node-helper.cc`, `helper/ground-node-helper.cc` | `AllocModel.v` |
| `model/mock-net-device.cc`: `AddHeader`, decapsulation in `Receive` | `FrameModel.v` |
| `model/mock-net-device.{h,cc}`, `model/leo-mock-net-device.{h,cc}`, `model/mock-channel.{h,cc}`, `model/isl-mock-channel.cc`, `model/leo-mock-channel.{h,cc}` | `NetModel.v`, `DeviceApiModel.v`; attributes without effect, queue interface, initialisation and disposal: `LifeModel.v` |
| `helper/leo-channel-helper.cc`, `helper/isl-helper.cc`, `model/leo-starlink-constants.h`, `model/leo-telesat-constants.h` | `HelperModel.v`, `NamesModel.v` |
| `helper/leo-helper.cc`, `helper/leo-helper.h` | `LeoHelperModel.v` |
| `EnablePcapInternal` and `EnableAsciiInternal` of the three helpers | `TraceModel.v` |
| `helper/leo-input-fstream-container.{h,cc}`, `helper/satellite-node-helper.cc` | `WaypointModel.v` |
| `model/leo-lat-long.cc`, `model/leo-orbit.cc`, and the file loops of the two node helpers | `ParseModel.v`, `Decimal64Model.v` |
| `helper/arp-cache-helper.cc`, `helper/nd-cache-helper.cc` | `CacheModel.v` |
| `examples/leo-circular-orbit-tracing-example.cc` | `TracingModel.v` |
| `examples/leo-delay-tracing-example.cc`, `examples/leo-bulk-send-example.cc`: set-up; of the former also `TracePacket`, `EchoRx`, the number of packets, `TraceIpForward` and `TraceIpDrop` | `ScenarioModel.v`, `AccountModel.v`, `MeasureModel.v`, `IpTraceModel.v` |

Of ns-3 (not in `/repo`) the following is modelled from its documentation and
sources as known: event order (time, then insertion), `EthernetHeader`,
`EthernetTrailer` and `LlcSnapHeader` layouts, packet queues as FIFO lists with an
admission rule, `Mac48Address` tests, `ObjectFactory` as a list of attribute
values, attribute construction order, `ConstantSpeedPropagationDelayModel`,
`MobilityHelper`/`ListPositionAllocator` order, `WaypointMobilityModel::AddWaypoint`
as append, node numbering and `Ipv4AddressHelper` (C87), ARP and NDISC caches as maps. Of libstdc++: formatted input and output of
integers and doubles in the "C" locale.

## What is not modelled

* `examples/` (except `leo-circular-orbit-tracing-example.cc`, C79, the set-up of `leo-delay-tracing-example.cc` and `leo-bulk-send-example.cc`, C87, and records and traffic of the former, C96 to C98), `test/`, `data/`, `doc/`; logging; `model/leo-oneweb-constants.h` and
  `model/orbit.h`, which no code uses.
* The formats of pcap records and ascii lines and of the file names made from a device
  (arbitrary functions), buffering of output streams.
* The MPI path of the channels' helpers; of `NetDeviceQueueInterface` only what it is
  told by the queue traces (C86), not what the traffic control layer does with it.
* Reentrancy beyond C90 (which lets callbacks, and sinks of the traces of receptions and
  of the end of a transmission, call Send): sinks of the traces that Send itself fires,
  and calls other than Send from within a callback; sharing of one packet object by
  several Send calls except as in C94 (objects handed to receive callbacks are not sent
  again there).
* Overflow of `Time` and more than 2^31 attachments per channel.
* In exact arithmetic: rounding, NaN and infinities (see *Numbers*); the notes of each
  property say which arithmetic its theorems cover.

## Wrong programs

The theorems were run against edited copies of the model (outside `/verif`): for each
edit every dependent file is rebuilt; a lemma whose proof fails is replaced by an
unproved one, and a theorem counts as failed when its own proof fails or its
assumptions contain an unproved lemma. `seeded/LOG.jsonl` has one line per edit.

## Per property: what is modelled and how it is proved

### C01 Satellite stays on its orbital sphere

Rodrigues rotation preserves the norm because the plane normal is a unit vector orthogonal to the start vector; lifted to every history with the invariant that the cached position is `CalcPosition` of some past time.

Model: `OrbitModel.v`, `MobilityModel.v`. Proof files: `OrbitProofs.v`, `MobilityProofs.v`, `OrbitApiProofs.v`.

Theorems (proved): `C01_on_orbital_sphere`.

Exact arithmetic; for every history of calls.

### C02 Satellite stays in its orbital plane

The rotation fixes the normal, so the position stays orthogonal to it; the plane is given by its own formula in `OrbitSpec.v`. Attainment of the bound by an explicit offset.

Model: `OrbitModel.v`, `MobilityModel.v`. Proof files: `OrbitProofs.v`, `MobilityProofs.v`, `OrbitApiProofs.v`.

Theorems (proved): `C02_in_orbital_plane`, `C02_bound_attained`.

Exact arithmetic; for every history of calls.

### C03 Velocity is tangential and bounded by the orbital speed

Cross product identities and the Lagrange identity for the bound; the bound is strict only when the cached position is stale.

Model: `OrbitModel.v`, `MobilityModel.v`. Proof files: `OrbitProofs.v`, `MobilityProofs.v`, `OrbitApiProofs.v`.

Theorems (proved): `C03_velocity`.

Exact arithmetic.

### C04 Velocity direction agrees with the motion along the orbit

Derivative of the path (component-wise, Coquelicot `auto_derive`, then translated to the spec's `derivative_at`), compared with `DoGetVelocity`.

Model: `OrbitModel.v`, `MobilityModel.v`. Proof files: `OrbitProofs.v`, `MobilityProofs.v`, `OrbitApiProofs.v`.

Theorems (proved): `C04_velocity_vs_motion`.

Exact arithmetic. Finding: above 90 degrees GetVelocity points against the motion.

### C05 Orbital speed follows the circular-orbit law, ground-referenced progress

Algebra with `sqrt`; the displacement from the derivative of C04.

Model: `OrbitModel.v`, `MobilityModel.v`. Proof files: `OrbitProofs.v`, `MobilityProofs.v`, `OrbitApiProofs.v`.

Theorems (proved): `C05_speed_law`, `C05_speed_decreases`, `C05_displacement`.

Exact arithmetic. Finding: progress uses the Earth radius instead of the orbit radius.

### C06 Orbit attributes read back what was written

Field identities over R lifted to histories; in binary64 the relative error of each operation (Flocq) composed over the four operations of a round trip; binary64 witnesses evaluated with Flocq.

Model: `OrbitModel.v`, `MobilityModel.v`. Proof files: `OrbitProofs.v`, `MobilityProofs.v`, `OrbitApiProofs.v`, `Read64Proofs.v`.

Theorems (proved): `C06_attributes_read_back`, `C06_altitude_binary64_refuted`, `C06_read_back_binary64`, `C06_inclination_binary64_refuted`.

Finding: in binary64 neither round trip is exact, e.g. altitude 0.1 km or inclination 13 degrees; the deviation is bounded.

### C07 Bounded staleness of the cached position

Invariant over histories relating the pending `Update` events to the last call; for every arithmetic.

Model: `OrbitModel.v`, `MobilityModel.v`. Proof files: `MobilityProofs.v`, `OrbitApiProofs.v`.

Theorems (proved): `C07_bounded_staleness`, `C07_bounded_staleness_path`, `C07_no_update_without_call`, `C07_toggled_precision_refuted`.

Any arithmetic. Companion theorems show that both hypotheses on the history are needed.

### C08 Zero precision means always exact

Same invariant: no event is pending and every read recomputes.

Model: `OrbitModel.v`, `MobilityModel.v`. Proof files: `MobilityProofs.v`, `OrbitApiProofs.v`.

Theorems (proved): `C08_zero_precision_exact`, `C08_zero_precision_path`.

Any arithmetic.

### C09 Course change notifications per period

Counting invariant: the number of live update sequences is the number of calls since the last change of precision regime.

Model: `OrbitModel.v`, `MobilityModel.v`. Proof files: `MobilityProofs.v`.

Theorems (proved): `C09_notifications`.

Any arithmetic. Finding: update sequences accumulate with every setter call.

### C10 Construction and zero inclination are the only undefined orbit states

Members are `option`s, `None` meaning uninitialised; the construction sequence is executed symbolically.

Model: `OrbitModel.v`, `MobilityModel.v`. Proof files: `MobilityProofs.v`.

Theorems (proved): `C10_construction`, `C10_histories`.

Any arithmetic. Finding: construction reads an uninitialised member.

### C11 Circular allocator enumerates the constellation plane by plane

Induction on the number of calls with div/mod arithmetic.

Model: `AllocModel.v`. Proof files: `AllocProofs.v`, `AllocApiProofs.v`.

Theorems (proved): `C11_circular_enumeration`.

Exact arithmetic.

### C12 Circular allocator hands out every slot exactly once per round

Injectivity and surjectivity of k -> (k/S mod P, k mod S); for binary64 the rounding error of the two operations is smaller than the gap.

Model: `AllocModel.v`. Proof files: `AllocProofs.v`, `AllocApiProofs.v`, `Alloc64Proofs.v`.

Theorems (proved): `C12_round_distinct`, `C12_round_covers`, `C12_periodic`, `C12_distinct_binary64`.

Exact arithmetic, and binary64 distinctness for all 16-bit sizes.

### C13 Polar allocator enumeration

Induction on the number of calls; 64-bit wrap-around of the row counter is in the model.

Model: `AllocModel.v`. Proof files: `AllocProofs.v`, `AllocApiProofs.v`.

Theorems (proved): `C13_polar_enumeration`, `C13_largest_latnum`, `C13_distinct_off_poles`.

Exact arithmetic. Finding: LatNum+1 rows per meridian; the largest LatNum never leaves meridian 0.

### C14 Polar allocator points lie on the Earth's surface

sin^2+cos^2=1 for every call of every sequence.

Model: `AllocModel.v`. Proof files: `AllocProofs.v`, `AllocApiProofs.v`.

Theorems (proved): `C14_polar_on_sphere`.

Exact arithmetic.

### C15 Allocators fail only on zero divisors

The `UB` outcome is characterised by an iff, per state and for call sequences.

Model: `AllocModel.v`. Proof files: `AllocProofs.v`, `AllocApiProofs.v`.

Theorems (proved): `C15_circular_failure`, `C15_polar_failure`, `C15_circular_calls`, `C15_polar_calls`.

Any arithmetic; per state and for call sequences.

### C16 Constellation installation

The helper loop over the allocator; induction over the list of orbits.

Model: `AllocModel.v`. Proof files: `AllocProofs.v`, `AllocApiProofs.v`.

Theorems (proved): `C16_constellation`, `C16_failure`, `C16_success_iff`.

Exact arithmetic. Finding: int overflow for large planes*sats. MobilityHelper of ns-3 is modelled from its documentation.

### C17 Ground grid installation

Loop model with the 32-bit product; enumeration of C13.

Model: `AllocModel.v`. Proof files: `AllocProofs.v`, `AllocApiProofs.v`.

Theorems (proved): `C17_ground_grid`, `C17_ground_grid_count`, `C17_last_meridian`, `C17_poles_shared`.

Exact arithmetic. Finding: co-located nodes at the poles, last meridians (nearly) empty, 32-bit wrap of the count.

### C18 Ground location conversion

Trigonometric identities over R (double angle).

Model: `AllocModel.v`. Proof files: `AllocProofs.v`, `AllocApiProofs.v`.

Theorems (proved): `C18_earth_position`, `C18_correct_latitudes`, `C18_equator_and_45`, `C18_geographic_refuted`.

Exact arithmetic. Finding: latitude is doubled.

### C19 Pairwise ground installation

Induction over the list of locations.

Model: `AllocModel.v`. Proof files: `AllocProofs.v`, `AllocApiProofs.v`.

Theorems (proved): `C19_locations`, `C19_pair`.

Exact arithmetic; for the list of locations read from the file.

### C20 Inter-satellite line of sight is exact

Quadratic equation of the line and the sphere, case split on the discriminant, convexity on the segment.

Model: `LossModel.v`. Proof files: `LossProofs.v`, `LeoLossProofs.v`, `LossApiProofs.v`.

Theorems (proved): `C20_line_of_sight_exact`, `C20_below_ground_refuted`.

Exact arithmetic. The refuted variant shows that points below ground on both ends are handled wrongly.

### C21 Line of sight is symmetric

From C20, the segment being symmetric; for binary64 the two evaluations are compared operation by operation.

Model: `LossModel.v`. Proof files: `LossProofs.v`, `LeoLossProofs.v`, `LossApiProofs.v`, `Loss64Proofs.v`.

Theorems (proved): `C21_line_of_sight_symmetric`, `C21_line_of_sight_symmetric_binary64`.

Exact arithmetic for all points; binary64 when the computed radii differ.

### C22 Co-located satellites have no line of sight

Flocq: x-x is 0 or NaN, 0/0 is NaN, comparisons with NaN are false.

Model: `LossModel.v`. Proof files: `Loss64Proofs.v`.

Theorems (proved): `C22_colocated_binary64`.

Every binary64 position, NaN and infinities included.

### C23 ISL received power

Case split on the two conditions.

Model: `LossModel.v`. Proof files: `LossProofs.v`, `LeoLossProofs.v`, `LossApiProofs.v`.

Theorems (proved): `C23_isl_power`, `C23_isl_power_any`.

### C24 LEO cutoff distance closed form

Rationalising the root with tan = sin/cos; monotonicity from the closed form.

Model: `LossModel.v`. Proof files: `LossProofs.v`, `LeoLossProofs.v`, `LossApiProofs.v`.

Theorems (proved): `C24_cutoff_closed_form`, `C24_cutoff_horizon`, `C24_cutoff_decreases_in_elevation`, `C24_cutoff_increases_in_altitude`, `C24_cutoff_even`.

Exact arithmetic. Also: a negative ElevationAngle acts like the positive one.

### C25 LEO elevation mask is sound

Law of cosines for the elevation angle of the receiver.

Model: `LossModel.v`. Proof files: `LossProofs.v`, `LeoLossProofs.v`, `LossApiProofs.v`.

Theorems (proved): `C25_mask_sound`.

Exact arithmetic.

### C26 LEO elevation mask is stricter than configured

Equality case of C25 and comparison of the two roots.

Model: `LossModel.v`. Proof files: `LossProofs.v`, `LeoLossProofs.v`, `LossApiProofs.v`.

Theorems (proved): `C26_boundary_cut_off`, `C26_zenith`, `C26_exact_mask`.

Exact arithmetic. Finding: the mask is stricter than configured.

### C27 LEO link budget

Case split; binary64 symmetry from the exactness of negation.

Model: `LossModel.v`. Proof files: `LossProofs.v`, `LeoLossProofs.v`, `LossApiProofs.v`, `Loss64Proofs.v`.

Theorems (proved): `C27_budget`, `C27_two_results`, `C27_symmetric`, `C27_symmetric_binary64`.

Symmetry also in binary64 for all inputs.

### C28 LEO propagation inside the Earth

Case split on the discriminant.

Model: `LossModel.v`. Proof files: `LossProofs.v`, `LeoLossProofs.v`, `LossApiProofs.v`.

Theorems (proved): `C28_below_ground`.

Exact arithmetic.

### C29 Frame round trip

Byte-level encode/decode; the checksum function is arbitrary.

Model: `FrameModel.v`. Proof files: `FrameProofs.v`.

Theorems (proved): `C29_frame_round_trip`.

Any checksum function.

### C30 Frame size

Length computation.

Model: `FrameModel.v`. Proof files: `FrameProofs.v`.

Theorems (proved): `C30_frame_size`.

### C31 Oversize frames are mis-parsed

Decode lemma for the EtherType branch.

Model: `FrameModel.v`. Proof files: `FrameProofs.v`.

Theorems (proved): `C31_oversize_misparsed`, `C31_mtu_refuted`.

Finding: legal packets of 1493..1500 bytes under the default MTU are mis-parsed.

### C32 Length wrap-around is caught

Decode lemma with the truncation modulo 65536.

Model: `FrameModel.v`. Proof files: `FrameProofs.v`.

Theorems (proved): `C32_length_wrap`.

Finding: payload length field wraps at 65536.

### C33 Transmit state machine never trips its assertions

Every operation is a sequence of small steps (`NetSteps.v`); invariant on transmitter state and pending completion, for all executions.

Model: `NetModel.v`. Proof files: `NetSteps.v`, `NetInv.v`, `NetTxProofs.v`.

Theorems (proved): `C33_transmit_assertions`.

The assertions cannot fail in any execution at all, also of misconfigured devices.

### C34 A device is busy iff one transmission is in flight

Same invariant.

Model: `NetModel.v`. Proof files: `NetSteps.v`, `NetInv.v`, `NetTxProofs.v`.

Theorems (proved): `C34_busy_iff_pending`.

### C35 Accepted packets are transmitted once, in order

Ghost list of accepted packets read from the log; invariant that it is transmitted ++ current ++ queued. `C35_reference` simulates a reference transmitter.

Model: `NetModel.v`. Proof files: `NetSteps.v`, `NetInv.v`, `NetTxProofs.v`, `NetSendProofs.v`.

Theorems (proved): `C35_accepted_in_order`, `C35_reference`.

Stated for executions in which the queue is not replaced once a packet was accepted (SetQueue drops what the old queue holds); C35_reference covers the others with a reference transmitter.

### C36 Transmissions of a device do not overlap

Invariant on the pending end-of-transmission event and the begin times in the log. The duration is read off the step that begins the transmission.

Model: `NetModel.v`. Proof files: `NetSteps.v`, `NetInv.v`, `NetTxProofs.v`, `NetOrderProofs.v`.

Theorems (proved): `C36_no_overlap`, `C36_begin_times`, `C36_durations`.

### C37 Send's return value

Case split on `Send` in every reachable state.

Model: `NetModel.v`. Proof files: `NetSendProofs.v`.

Theorems (proved): `C37_send_result`, `C37_other_destination`, `C37_no_queue`.

Also the outcomes for destinations that are not a Mac48Address and for devices without queue.

### C38 Destination of queued packets

Invariant naming the destination in the pending event; concrete execution for the refutation.

Model: `NetModel.v`. Proof files: `NetSteps.v`, `NetInv.v`, `NetTxProofs.v`, `NetSendProofs.v`.

Theorems (proved): `C38_destination_of_period`, `C38_single_destination`, `C38_own_destination_refuted`.

Finding: queued packets are transmitted with the destination of the packet that opened the busy period (mock-net-device.cc:349-381); C38_own_destination_refuted is the wrong delivery.

### C39 Receive decision table

Case split on `Receive` against a decision table written in `NetSpec.v`.

Model: `NetModel.v`. Proof files: `NetSendProofs.v`.

Theorems (proved): `C39_receive_table`, `C39_receive_total`.

### C40 Trace sources

Each operation's log is compared with the trace table of `NetSpec.v`; invariants over executions for the counts. PhyTxDrop: an inductive shape of the log, kept by every step.

Model: `NetModel.v`. Proof files: `NetTxProofs.v`, `NetSendProofs.v`, `NetOrderProofs.v`.

Theorems (proved): `C40_trace_sources`, `C40_no_sniffer_on_reception`, `C40_tx_drop`.

Finding: the Sniffer trace source is only fired on transmission.

### C41 LEO channel connects opposite sides only

The two maps of the channel are sorted association lists; induction over the map, and an invariant on their keys.

Model: `NetModel.v`. Proof files: `NetSteps.v`, `NetInv.v`, `NetTxProofs.v`, `NetChanProofs.v`, `NetSideProofs.v`, `NetOrderProofs.v`.

Theorems (proved): `C41_opposite_sides`, `C41_receivers`, `C41_address_change_refuted`, `C41_members`.

C41_opposite_sides needs pairwise distinct addresses and no change of address or type while attached; C41_address_change_refuted shows a ground-to-ground delivery otherwise.

### C42 LEO channel result

Induction over the map.

Model: `NetModel.v`. Proof files: `NetSteps.v`, `NetInv.v`, `NetTxProofs.v`, `NetChanProofs.v`.

Theorems (proved): `C42_leo_result`.

### C43 ISL unicast reaches only the addressed device

Induction over the list of attachments.

Model: `NetModel.v`. Proof files: `NetSteps.v`, `NetInv.v`, `NetTxProofs.v`, `NetChanProofs.v`.

Theorems (proved): `C43_isl_unicast`.

### C44 ISL broadcast reaches everybody else

Induction over the list of attachments.

Model: `NetModel.v`. Proof files: `NetSteps.v`, `NetInv.v`, `NetTxProofs.v`, `NetChanProofs.v`.

Theorems (proved): `C44_isl_broadcast`.

A device attached twice receives its own broadcast (dropped by Receive, C52) and others' twice.

### C45 ISL multicast and unknown destinations fail

Induction over the list of attachments.

Model: `NetModel.v`. Proof files: `NetSteps.v`, `NetInv.v`, `NetTxProofs.v`, `NetChanProofs.v`.

Theorems (proved): `C45_isl_unknown`.

Finding: IsMulticast returns true but frames to multicast addresses never leave the inter-satellite channel.

### C46 Reception delay

Case split on `Deliver`; conservation invariant between scheduled receptions, events and receptions. Order: the receptions performed followed by the waiting ones stay sorted.

Model: `NetModel.v`. Proof files: `NetSteps.v`, `NetInv.v`, `NetTxProofs.v`, `NetChanProofs.v`, `NetOrderProofs.v`.

Theorems (proved): `C46_reception_delay`, `C46_receptions_conserved`, `C46_order`.

### C47 Cut-off in the channel

Case split on `Deliver`.

Model: `NetModel.v`. Proof files: `NetSteps.v`, `NetInv.v`, `NetTxProofs.v`, `NetChanProofs.v`.

Theorems (proved): `C47_cut_off`.

### C48 Device indices are stable

Induction over executions.

Model: `NetModel.v`. Proof files: `NetSteps.v`, `NetInv.v`, `NetTxProofs.v`, `NetChanProofs.v`.

Theorems (proved): `C48_stable_indices`, `C48_attach_index`.

### C49 Detach semantics

Invariant over executions plus concrete executions.

Model: `NetModel.v`. Proof files: `NetSteps.v`, `NetInv.v`, `NetTxProofs.v`, `NetChanProofs.v`, `NetSideProofs.v`.

Theorems (proved): `C49_isl_detach`, `C49_isl_still_receives`, `C49_leo_detached_silent`, `C49_leo_detach`.

Finding: Detach does not stop reception on inter-satellite channels; LeoMockChannel::Detach with a bad index is undefined behaviour.

### C50 Address changes after Attach

Invariant on the keys of the maps.

Model: `NetModel.v`. Proof files: `NetSteps.v`, `NetInv.v`, `NetTxProofs.v`, `NetChanProofs.v`, `NetSideProofs.v`.

Theorems (proved): `C50_address_changed`, `C50_detach_leaves`, `C50_still_receives`.

Finding: the LEO channel's index is keyed by the address at Attach.

### C51 End-to-end integrity

Provenance invariant over frames in queues and events, plus C29.

Model: `NetModel.v`. Proof files: `NetProvProofs.v`.

Theorems (proved): `C51_integrity`.

Payloads up to 1492 bytes; longer ones are misparsed (C31).

### C52 No device hears itself

Provenance of the sender in reception events.

Model: `NetModel.v`. Proof files: `NetProvProofs.v`.

Theorems (proved): `C52_not_itself`.

### C53 Helper-installed networks never crash

Well-formedness invariant established by the helpers and preserved by sends and events; programs interleave installations, sends and events.

Model: `HelperModel.v`, `NetModel.v`. Proof files: `NetSafeProofs.v`, `HelperSafeProofs.v`.

Theorems (proved): `C53_never_fails`, `C53_exact`.

Any arithmetic in which the two constant-speed delays are not negative; in exact arithmetic without that hypothesis. The transmission time is any function that is not negative for positive rates.

### C54 Inter-satellite delivery is exactly line of sight

Composition of C20, C23, C43, C44 and C47 for channels installed by `IslHelper`.

Model: `HelperModel.v`, `NetModel.v`. Proof files: `HelperProofs.v`, `HelperApiProofs.v`, `LossProofs.v`, `NetChanProofs.v`.

Theorems (proved): `C54_line_of_sight`.

Exact arithmetic.

### C55 Waypoint files are read completely and in order

Induction over the samples of the file; the time given by a failing read is arbitrary.

Model: `WaypointModel.v`. Proof files: `WaypointProofs.v`.

Theorems (proved): `C55_complete`, `C55_negative_last_time`, `C55_missing_file`.

Files are modelled as the list of waypoints readable before the first failure; a failing read gives an arbitrary time. Reading a negative last time is a finding (C55_negative_last_time).

### C56 Waypoint filtering

Exact description of one call by cases, against a spec filter.

Model: `WaypointModel.v`. Proof files: `WaypointProofs.v`.

Theorems (proved): `C56_exact`, `C56_cases`.

The loop overwrites the sample by the failing read after updated was set; the extra sample and the new last time are unspecified (C56_exact).

### C57 Multi-file satellite installation

Induction over the list of files, the last time being carried over.

Model: `WaypointModel.v`. Proof files: `WaypointProofs.v`.

Theorems (proved): `C57_install`, `C57_missing_file`, `C57_carried_over`, `C57_trajectories_refuted`.

Finding: identical time ranges in two files lose the second trajectory (C57_trajectories_refuted). Whether AddWaypoint of ns-3 accepts the extra waypoint is not modelled.

### C58 Rewinding a waypoint stream

Same, with the reopened stream.

Model: `WaypointModel.v`. Proof files: `WaypointProofs.v`.

Theorems (proved): `C58_rewind`, `C58_rewind_none_later`, `C58_attribute`, `C58_file_attribute`, `C58_file_attribute_fresh`.

Full, including the attributes that neither rewind nor open a file.

### C59 Orbit and location records are read up to the first malformed one

Character-level model of the extraction operators; grammar of number texts in `ParseSpec.v`; induction over the file.

Model: `ParseModel.v`, `Decimal64Model.v`. Proof files: `ParseProofs.v`, `ParseRecordProofs.v`.

Theorems (proved): `C59_location`, `C59_orbit`, `C59_ground_file`, `C59_orbit_file`, `C59_unique`, `C59_missing_file`.

Finding: bad input is never reported; a malformed record ends the file silently and a missing file gives no nodes. A negative count of planes or satellites wraps around modulo 65536.

### C60 Printed records are read back

Printer model; decimal arithmetic over Q; error analysis of six-digit decimals in binary64.

Model: `ParseModel.v`, `Decimal64Model.v`. Proof files: `ParseProofs.v`, `ParseRecordProofs.v`, `SixDigitsProofs.v`.

Theorems (proved): `C60_locations`, `C60_orbits`, `C60_binary64`, `C60_short_total`, `C60_refuted`.

C60_refuted: the default precision of six digits loses information; 1234567 is printed as 1.23457e+06 and read as 1234570. Infinities and NaN are not modelled.

### C61 ARP/ND cache priming

Double loop writing an association map; last-writer characterisation.

Model: `CacheModel.v`. Proof files: `CacheProofs.v`.

Theorems (proved): `C61_arp_exact`, `C61_nd_exact`, `C61_arp_resolves`, `C61_nd_resolves`, `C61_same_index`, `C61_refuted`.

C61_refuted: the helpers select the peer's address by GetIfIndex of the peer, which is its index on its node, not in the container.

### C62 Constellation presets

Evaluation of the string function against the table of `HelperSpec.v`; every other name is rejected.

Model: `HelperModel.v`, `NetModel.v`. Proof files: `HelperProofs.v`, `HelperApiProofs.v`.

Theorems (proved): `C62_presets`, `C62_unknown_name`.

Any arithmetic. With assertions disabled the code would keep the previous values; assertions are modelled as enabled.

### C63 Preset links close

Binary64 evaluation of the budget for each preset, monotonicity for all positions.

Model: `HelperModel.v`, `NetModel.v`. Proof files: `HelperProofs.v`, `HelperApiProofs.v`, `Loss64Proofs.v`.

Theorems (proved): `C63_links_close`, `C63_installed_links_close`.

binary64 with arbitrary libm functions and arbitrary positions, including NaN and infinite ones. C63_installed_links_close covers the devices a preset installs: they carry the default threshold and take every frame that is not cut off.

### C64 Channel helper structure

Induction over the node lists; addresses by induction over the program.

Model: `HelperModel.v`, `NetModel.v`. Proof files: `HelperProofs.v`, `HelperApiProofs.v`, `PropAddr.v`.

Theorems (proved): `C64_addresses`, `C64_leo_install`, `C64_isl_install`, `C64_types_refuted`.

Finding: a DeviceType attribute set by the user silently overrides the side given to Install (C64_types_refuted).

### C65 Channel loss and delay configuration

Evaluation of the factories and induction over the list of configuration calls.

Model: `HelperModel.v`, `NetModel.v`. Proof files: `HelperProofs.v`, `HelperApiProofs.v`.

Theorems (proved): `C65_leo_channel`, `C65_channel_attributes_ignored`, `C65_isl_channel`.

Finding: SetChannelAttribute of PropagationDelay or PropagationLoss on LeoChannelHelper has no effect; IslHelper honours it.

### C66 LeoHelper setters reach the right devices

Induction over the list of calls for a per-group description of the helper; the installed devices from the specification of the two channel helpers' Install.

Model: `LeoHelperModel.v`, `HelperModel.v`, `NetModel.v`. Proof files: `LeoHelperSpec.v`, `LeoHelperProofs.v`, `HelperProofs.v`, `HelperApiProofs.v`.

Theorems (proved): `C66_refused`, `C66_setters`, `C66_queue_refuted`.

Findings: SetQueue leaves the inter-satellite queues at their default; SetDeviceAttribute of an attribute that only LeoMockNetDevice has always aborts, because it is set on the inter-satellite factory first; SetChannelAttribute has no effect on the gateway and terminal channels.

### C67 LeoHelper::Install makes three separate networks

Composition of the three installations; traffic by induction over the operations, with the channels' link lists and index maps unchanged by them.

Model: `LeoHelperModel.v`, `HelperModel.v`, `NetModel.v`. Proof files: `LeoHelperSpec.v`, `LeoHelperProofs.v`, `NetSideProofs.v`.

Theorems (proved): `C67_networks`, `C67_separate`.

Traffic is shown separate for sends and simulator events after the installation; reconfiguration afterwards is outside the second theorem.

### C68 ARP caches after LeoHelper::Install

Device indices by induction over the nodes; the last writer of each cache entry from the exact result of ArpCacheHelper (C61) for a mesh and for a star of endpoints.

Model: `LeoHelperModel.v`, `CacheModel.v`. Proof files: `LeoHelperSpec.v`, `LeoHelperProofs.v`, `LeoArpProofs.v`, `CacheProofs.v`.

Theorems (proved): `C68_caches`, `C68_stack_once`, `C68_unresolved`.

Finding: ArpCacheHelper uses the device index on the node as index into the interface container, so the caches filled by LeoHelper resolve nothing (except one satellite from the gateways if there are exactly two satellites). Ipv4AddressHelper of ns-3 is modelled as an arbitrary function.

### C69 Pcap captures are complete, ordered and always promiscuous

Every network step is shown to fire exactly the trace sources that the specification reads off the observations; induction over the run for the file, whose one to three streams write the same bytes at the same places.

Model: `TraceModel.v`, `NetModel.v`. Proof files: `TraceSpec.v`, `TraceProofs.v`, `TraceFileProofs.v`, `TraceRunProofs.v`.

Theorems (proved): `C69_capture`, `C69_enable`, `C69_promiscuous_refuted`.

Finding (C69_promiscuous_refuted): the promiscuous flag has no effect, a capture that is not promiscuous contains frames for other hosts. The bytes of records are arbitrary functions of time and frame.

### C70 Ascii captures

Same decomposition of a run into fired sources; induction over the run for the contents of the stream, with the connected devices as invariant; the replaced queue by the set of queues still hooked.

Model: `TraceModel.v`, `NetModel.v`. Proof files: `TraceSpec.v`, `TraceProofs.v`, `TraceFileProofs.v`, `TraceRunProofs.v`.

Theorems (proved): `C70_own_file`, `C70_shared_stream`, `C70_no_queue`, `C70_once_refuted`.

Finding (C70_once_refuted): LeoHelper writes each event of a LEO device three times to a shared stream. The texts of lines are arbitrary functions of mark, path, time and packet.

### C71 The elevation angle reads back what was written

A field identity over R; in binary64 the relative error of each of the four operations, composed; a binary64 witness evaluated with Flocq.

Model: `LossModel.v`. Proof files: `Read64Proofs.v`.

Theorems (proved): `C71_elevation_read_back`, `C71_elevation_read_back_binary64`, `C71_elevation_binary64_refuted`.

Finding: in binary64 the round trip is not exact, e.g. 30 degrees. The bound is proved with Flocq; no assumption is made on the libm functions.

### C72 Every network comes to rest

Well-founded induction: each completed transmission shortens a queue or empties it, each reception removes an event; pairs of pending work and pending receptions decrease lexicographically.

Model: `NetModel.v`, `HelperModel.v`. Proof files: `NetDrainProofs.v`, `NetInv.v`, `NetTxProofs.v`.

Theorems (proved): `C72_comes_to_rest`, `C72_helpers`.

An event can abort (e.g. a missing receive callback, C39); the theorem says the run then fails the same way however many events follow. The helper corollary excludes that under the hypotheses of C53.

### C73 What is transmitted arrives

Transmission puts an event for every recipient into the queue (from the exact behaviour of the channels); by induction over the following operations the event stays or is performed, with the configuration unchanged; `Receive` is computed with the frame round trip.

Model: `NetModel.v`, `FrameModel.v`. Proof files: `NetDrainProofs.v`, `NetChanProofs.v`, `FrameProofs.v`, `NetOrderProofs.v`.

Theorems (proved): `C73_delivered`, `C73_end_to_end`.

Recipients, hearing, delay and power are those at the moment of transmission. A LEO recipient is whoever is in the map of the other side then. The link state of the recipient plays no role: detached devices still receive (C49).

### C74 Multicast

Computation of the addresses; C45 in the device; C73 for the other side.

Model: `DeviceApiModel.v`, `NetModel.v`. Proof files: `NetDrainProofs.v`.

Theorems (proved): `C74_group_addresses`, `C74_group_addresses_refuted`, `C74_isl_drops`, `C74_leo_floods`.

Finding: IP multicast does not work over inter-satellite links although IsMulticast is true, and on LEO links groups cannot be told apart at the link layer.

### C75 Positions in doubles

Forward error analysis: `near K x r e B` says the double x is within K e of K r with |r| <= B; one rule per operation, with absolute errors relative to a scale K, which survives cancellation in cross products. Sine and cosine by the mean value theorem, M_PI by a Machin formula. The instants of cached positions by an invariant over histories.

Model: `OrbitModel.v`, `MobilityModel.v`, `Num64.v`. Proof files: `Float64Proofs.v`, `Orbit64Proofs.v`, `Orbit64Api.v`.

Theorems (proved): `C75_position_binary64`.

`accurate` (absolute error of at most 2^-52 for finite arguments, finite results) is a hypothesis on libm, met by any faithfully rounded implementation; the example exhibits functions that meet it. Time::GetSeconds is one rounded division in the model, ns-3 goes through int64x64_t.

### C76 Velocities in doubles

As C75, with a rule for the square root; the threshold by monotonicity of rounding and the two doubles next to it.

Model: `OrbitModel.v`, `MobilityModel.v`, `Num64.v`. Proof files: `Float64Proofs.v`, `Orbit64Proofs.v`, `Orbit64Api.v`.

Theorems (proved): `C76_velocity_binary64`, `C76_direction_binary64`.

Exact velocity: what C03/C04 compute over the reals - the point a quarter turn ahead on a circle with the speed as its radius.

### C77 Line of sight in doubles

Error rules of C75 through the quadratic formula, with the square root of the computed discriminant as reference; then a real argument: clear segments make the discriminant clearly negative or put the entry point beyond the segment by the margin (w (w + q) >= 2 R delta), blocked ones put it inside by the chord. The choice of the outer satellite by computed lengths is right up to 20 ulp, which the distance between the satellites absorbs.

Model: `LossModel.v`, `OrbitModel.v`, `MobilityModel.v`, `Num64.v`. Proof files: `Los64Proofs.v`.

Theorems (proved): `C77_line_of_sight_binary64`, `C77_isl_link_binary64`.

The line of sight test alone uses no trigonometric function, so the first theorem has no accuracy hypothesis. The margin K / 10^6 comes from the square root of the discriminant, whose error is the square root of the rounding error.

### C78 Ground-link cut-off in doubles

Error rules of C75 with a separate bound for the tangent (its slope is at most 115^2 up to 89 degrees), through the square root and the division; then a comparison of the computed distance (two square roots of the same sum) with the computed cut-off. The mask theorem turns the remaining 10^-8 into the slack 2 sin(e) r (H - R) that the sphere leaves.

Model: `LossModel.v`, `Num64.v`. Proof files: `Leo64Proofs.v`.

Theorems (proved): `C78_cutoff_binary64`, `C78_ground_link_binary64`, `C78_mask_sound_binary64`.

The zero-margin mask theorem holds because the formula of the code multiplies the sine of the angle by the distance of the satellite instead of the radius of the sphere, which makes the cut-off too short by more than the rounding error; at an angle of exactly 0 a margin is unavoidable, which the second theorem states.

### C79 The tracing program

Operational model of the program with an event list; invariant: before each instant the pending events are the updates of all satellites in order, with the end of the simulation at its place; induction over the instants and over the satellites. Doubles: C75 and C76 at each line, plus the error of six decimal digits.

Model: `TracingModel.v`, `AllocModel.v`, `ParseModel.v`. Proof files: `TracingProofs.v`, `Tracing64Proofs.v`.

Theorems (proved): `C79_ticks`, `C79_trace`, `C79_negative_duration`, `C79_failures`, `C79_orbit_file`, `C79_missing_file`, `C79_columns`, `C79_csv_refuted`, `C79_trace_binary64`.

C79_csv_refuted: the header announces columns separated by commas, the lines separate them by colons. Further findings: the positions at time 0 and (unless the precision equals the duration) at the end are not printed: 60 s at 1 s give 59 instants; six digits leave up to 5 m per 1000 km. The text of a time and the behaviour of Config::Connect without satellites depend on the version of ns-3 and are parameters.

### C80 A network over a constellation follows its orbits

Invariant over everything a simulator can do with a satellite left alone: the cached point is the one of the last refresh and exactly one update is pending, a precision later. Chords are no longer than arcs, so the point moves by at most the two angular speeds times the radius; every point of a segment moves by no more than its ends. The decisions are C20 and C27 at these points, the delivery C73, the doubles C75.

Model: `MobilityModel.v`, `AllocModel.v`, `NetModel.v`, `HelperModel.v`, `LossModel.v`. Proof files: `ConstellationProofs.v`, `Tracing64Proofs.v`.

Theorems (proved): `C80_positions`, `C80_staleness`, `C80_isl_hears`, `C80_isl_true_positions`, `C80_isl_delivery`, `C80_ground_hears`, `C80_positions_binary64`.

Composes the satellites as InstallOrbits leaves them with the network, whose positions were a parameter so far (HelperModel). Findings: a negative precision freezes the whole constellation at its starting points; between refreshes links are judged by old points, off by at most ground_speed times the precision. Two satellites at exactly the same point are excluded for the reals (GetLos divides by their distance; C22 has the doubles). At the instant of a refresh either point may be reported, depending on the order of the events.

### C81 Ground stations in doubles

Forward error analysis: angles i * (pi / n) and degrees * (pi / 90) lose at most 50 units of 2^-52, each coordinate 106 units of the radius.

Model: `AllocModel.v`. Proof files: `Ground64Proofs.v`.

Theorems (proved): `C81_polar_binary64`, `C81_grid_binary64`, `C81_locations_binary64`, `C81_on_the_ground`, `C81_latitude_refuted`.

Accuracy of sine and cosine is a hypothesis (`accurate`, met by correctly rounded functions, ex_accurate). The doubling of the latitude (pi/90) is C18.

### C82 The links of an installed network in doubles

C75 and C81 put the computed points near the exact ones; C77 and C78 decide for the computed points; distances, segments and the slant range (Lipschitz with constant 13 in the radius) carry this to the exact ones. For the mask the 10 m between the two Earth radii absorb the margin.

Model: `AllocModel.v`, `MobilityModel.v`, `LossModel.v`, `HelperModel.v`, `NetModel.v`. Proof files: `Link64Proofs.v`, `Ground64Proofs.v`, `Leo64Proofs.v`, `Los64Proofs.v`.

Theorems (proved): `C82_isl_hears_binary64`, `C82_ground_hears_binary64`.

Whole chain from installation to the decision; hypotheses `accurate` and `accurate_tan` on the C library, met by correctly rounded functions. The speed of the delay model is any whole number of m/s up to 10^9: IslHelper uses 299792458, LeoChannelHelper 299702458. ns3::Seconds and the event queue are as in C80. The mask holds exactly because the ground station code puts stations 10 m below the radius of the link model, which outweighs all rounding.

### C83 What is received was heard, and what is heard arrives, also in doubles

Every pending reception carries a transmission of an earlier step over an open link (invariant by induction on the operations from the end); the callback comes from the reception at the head of the queue. Traffic keeps channels and configurations, so C80 and C82 apply at the transmission; deliveries by C73.

Model: `NetModel.v`, `HelperModel.v`, `LossModel.v`, `MobilityModel.v`, `AllocModel.v`. Proof files: `NetHeardProofs.v`, `NetDrainProofs.v`.

Theorems (proved): `C83_received_only_if_heard`, `C83_isl_receptions`, `C83_ground_receptions`, `C83_isl_receptions_binary64`, `C83_ground_receptions_binary64`, `C83_isl_delivery_binary64`, `C83_ground_delivery_binary64`.

Converse of C73 for whole histories. The threshold and error model are those of the receiver when the event runs; the link is judged when the frame is transmitted (so a link that closes while the frame is in flight still delivers it). ns3::Seconds is an arbitrary function of the computed delay; accuracy of the C library is a hypothesis as in C75 to C82.

### C84 Configuration is last-write-wins, and the MTU, interface index and SendFrom have no effect

Each step changes the configuration by at most the one setting it is (by cases over all operations and events), then induction on the list of operations.

Model: `NetModel.v`, `LifeModel.v`. Proof files: `LifeProofs.v`.

Theorems (proved): `C84_configuration`, `C84_no_effect`, `C84_no_effect_of_interface`, `C84_read_back`, `C84_mtu_refuted`.

The default data rate is 32768 bit/s. Refuted expectation: a packet longer than the MTU is not sent (C84_mtu_refuted). Each value of the network configuration is covered by C84_configuration, so that no attribute is written to the place of another.

### C85 Disposal of devices: what is safe and what is not

Simulation relation between the two worlds (equal but for the members of the disposed device, which stays apart), preserved by every operation and event; the rest by computation of the functions on a device without channel, queue and node.

Model: `NetModel.v`, `LifeModel.v`. Proof files: `LifeProofs.v`.

Theorems (proved): `C85_disposed`, `C85_disposed_once`, `C85_dispose_call`, `C85_own_calls`, `C85_in_flight`, `C85_sending_to_disposed`, `C85_invisible`, `C85_detached`, `C85_at_rest`, `C85_isl_refuted`, `C85_error_model_refuted`.

Two refuted expectations: detaching from an inter-satellite channel makes disposal safe (C85_isl_refuted); the error model of a device sees all frames that arrive (C85_error_model_refuted: not those that arrive after disposal).

### C86 Flow control reports: each byte is reported once per connection, so twice for ground links

Every micro-step of the network that changes a queue fires exactly the matching queue trace; sums over the log of a step, then induction on the calls; the two connections by following install and initialisation through any calls in between that leave the queue alone.

Model: `LifeModel.v`, `NetModel.v`, `TraceModel.v`. Proof files: `FlowProofs.v`.

Theorems (proved): `C86_reported`, `C86_installed_twice`, `C86_aggregated_once`, `C86_initialize`, `C86_flow_refuted`.

Finding: LeoChannelHelper::Install connects the queue traces and MockNetDevice::DoInitialize connects them again; every enqueue and dequeue is reported twice (C86_flow_refuted: 128 bytes wait, 256 are reported). IslHelper aggregates no interface, so its devices report nothing. ConnectQueueTraces of ns-3 (a separate connection per call) is modelled from its documentation.

### C87 The networks of the example programs: what they consist of, and what their traffic does

The set-up is computed step by step through the helpers (C16, C17, C53, C64, C80) for any options; receptions and deliveries by tracing each callback back to a transmission (C83) over the channels the set-up built.

Model: `ScenarioModel.v`. Proof files: `ScenarioProofs.v`.

Theorems (proved): `C87_outcome`, `C87_nodes`, `C87_world`, `C87_never_fails`, `C87_stations`, `C87_receptions`, `C87_delivery`, `C87_receptions_binary64`, `C87_placed`, `C87_users_refuted`, `C87_islRate_refuted`.

Two refuted expectations. C87_users_refuted: the users are not at their coordinates (GetEarthPosition doubles the latitude, C17). C87_islRate_refuted: the variable islRate ("2Gbps") is never read; the ISL devices run at 32768 bit/s unless --islRate is given. The programs' routing, applications and trace sinks, and ns-3's IPv4 layer beyond address assignment, are not modelled; C87_receptions and C87_delivery hold for whatever traffic they send. C87_placed: positions as the other theorems assume exist for whatever can be set up. C87_receptions_binary64 assumes sine, cosine and tangent accurate as in C75 to C83.

### C88 Order of arrival over a link: when frames overtake each other, and by how much

Departures are logged in the order of time (invariant of all executions) and receptions are performed and waiting in the order of theirs, those of the same time in that of departure; two such lists with the same elements per time are equal. Delays are compared by the triangle inequality and the speed bound of C80.

Model: `NetModel.v`, `MobilityModel.v`. Proof files: `OrderProofs.v`.

Theorems (proved): `C88_order`, `C88_overtaking`, `C88_in_order`, `C88_satellite_drifts`, `C88_constellation`, `C88_constellation_in_order`, `C88_same_period`, `C88_order_refuted`.

C88_order_refuted: the ISL channel reorders. Two satellites 1200 km high in neighbouring planes, refreshed every second: a packet sent 2 us before the refresh arrives after the one sent 2 us behind it, because all of the movement of a second (4 km, 13 us) takes effect at once. The delay model is the distance over a constant speed (ns-3's ConstantSpeedPropagationDelayModel), in reals.

### C89 How long a packet waits at a device, and how much a device can carry

Invariant over all small steps: what was accepted splits into what was transmitted in time and what is in the queue; the j-th waiting packet starts at most j slots after the pending end of transmission, and it joined at most L*H before that. Capacity follows from C36 (no overlap) by induction on the transmissions.

Model: `NetModel.v`. Proof files: `QueueProofs.v`.

Theorems (proved): `C89_waiting`, `C89_default_room`, `C89_no_waiting`, `C89_slots`, `C89_throughput`.

The transmission time by rate and size is a parameter (ns-3's DataRate::CalculateBytesTxTime); C89_throughput asks of it only that 8 n 10^9 <= bps (t + 1). The room in the queue does not count the packet being transmitted, so the bound L*H is reached (example).

### C90 Upper layers may send from within callbacks, but not from the end-of-transmission trace

No function of the network model reads the trace, so that worlds which differ in it run alike (each function commutes with putting observations in front). A reception with answers is a sequence of observations and sends; sends change neither clock nor configuration and make no receiving observation, so that all observations can be moved before all sends. Induction on the operations. For the end of transmission: a transmitter that is busy without a packet stays so (invariant over all steps) until its completion event, which aborts.

Model: `ReactModel.v`, `NetModel.v`. Proof files: `ReactProofs.v`.

Theorems (proved): `C90_reentrant`, `C90_at_once`, `C90_no_assertion`, `C90_end_sink`, `C90_assertion_refuted`.

Answers are calls of Send, any number on any devices, decided from the whole history of observations. Not covered: sinks of the traces that Send itself fires, and calls other than Send. Finding (C90_end_sink, C90_assertion_refuted): TransmitComplete sets READY before the PhyTxEnd trace and clears m_currentPkt after it, so that sending from that trace aborts the simulation.

### C91 Relayed packets arrive hop by hop after the propagation delays

Invariant of the pending events: one reception of the packet at the end of the current hop, plus harmless ones (ends of transmissions of busy devices without waiting packets, and receptions of frames for other hosts). Harmless events are handled without a reception by protocols; the reception of the packet starts the next hop, whose sender is idle because every device sends once. Induction on the path, inside it on the number of harmless events.

Model: `ReactModel.v`, `NetModel.v`, `RelaySpec.v`. Proof files: `RelayProofs.v`.

Theorems (proved): `C91_relay`, `C91_latency`, `C91_store_and_forward_refuted`.

Each hop has to work at the instant the packet gets there (attached, up, unicast address, heard, above the threshold, no error); devices on the path send once, so that no packet waits. Finding (C91_store_and_forward_refuted): the channels count the transmission time only between nodes without mobility models, so that multi-hop latency does not depend on data rates.

### C92 Links within an orbital plane are permanent or never there, with a fixed delay

The angle between two places of a plane does not depend on time; chord and clearance follow from the inner product of the two positions. C80 turns them into what the channel does, and C91 relays the packet, each hop being usable at the instant the packet gets there.

Model: `OrbitModel.v`, `AllocModel.v`, `NetModel.v`, `ReactModel.v`, `RingSpec.v`. Proof files: `RingProofs.v`.

Theorems (proved): `C92_plane`, `C92_links`, `C92_relay`.

Over the real numbers. At the instants at which an update is due, one of two satellites may report the position of the update before, so that these instants are excluded (C80 bounds the error there). Visibility does not depend on time, inclination or the plane: a plane of fewer than three satellites, or one flying too low, never has inter-satellite links.

### C93 Coverage: which ground stations the satellites reach, and when

The inner product of the station with a satellite is r rho times the cosine of the angle from the direction nearest to the station; of S directions spread evenly one is within pi/S (rounding to the nearest), and the law of cosines turns this into a distance, which C80 turns into what the channel does. For polar orbits the same argument picks the plane. For high latitudes: Cauchy-Schwarz for the horizontal parts and monotonicity of the cosine.

Model: `OrbitModel.v`, `AllocModel.v`, `LossModel.v`, `NetModel.v`, `CoverSpec.v`. Proof files: `CoverProofs.v`.

Theorems (proved): `C93_plane`, `C93_polar`, `C93_station`, `C93_global`, `C93_high_latitude`, `C93_distinct_positions_refuted`.

Over the real numbers; C93_high_latitude needs no restriction to instants without updates. The global condition is sufficient, not necessary (with an odd number of planes fewer would do, because the planes are spread over a full turn and with an even number they coincide in pairs on a polar orbit). Finding (C93_distinct_positions_refuted): installed satellites need not be apart: there is no phase shift between planes, so that on polar orbits the first satellites of all planes coincide at time 0, where inter-satellite links between them are cut off (C22).

### C94 Packet objects sent more than once

A heap of packet objects beside the network model: queues and transmitters are read from the heap. Invariant: the network state is the one read from the heap, and the counters are not negative. The difference of waiting and counted bytes changes only when a waiting object is sent, by the number of its occurrences times the growth of a frame; for programs that send objects once it stays 0, which gives the simulation.

Model: `SharedModel.v`, `NetModel.v`, `FrameModel.v`, `SharedSpec.v`. Proof files: `SharedProofs.v`.

Theorems (proved): `C94_separate`, `C94_rewrites`, `C94_again`, `C94_counter`, `C94_waiting`, `C94_ends`, `C94_retry_refuted`.

Findings: C94_retry_refuted (a packet that Send refused because the queue was full cannot be sent again by the caller: it has already become a frame), C94_ends (sending the same packet object on two devices, or twice on one, while it waits makes the program stop later). Receive callbacks get objects that are not sent again; admission looks at the packets, not at the byte counter; the assertion is that of ns-3's Queue::DoDequeue.

### C95 How long contacts between ground stations and satellites last

Cauchy-Schwarz for the station and the sum of the two positions bounds the angle between them from above; the angle is w dt up to the turning of the plane (chord not longer than arc). For the end of a pass the first nanosecond after phi/w is taken. Persistence is the triangle inequality with the speed bound of C80.

Model: `OrbitModel.v`, `AllocModel.v`, `LossModel.v`, `NetModel.v`, `ContactSpec.v`. Proof files: `ContactProofs.v`.

Theorems (proved): `C95_contact`, `C95_pass_ends`, `C95_same_satellite`, `C95_loses_contact`, `C95_persists`.

Over the real numbers. The bounds are sufficient, not the exact length of a pass. w is orbital speed over the radius of the Earth, not of the orbit (C05), so that passes are shorter than on the real orbit.

### C96 What the drop and transfer records of the delay program account for

Each operation adds to the trace exactly one MacTxDrop or acceptance if it is a Send and none otherwise; with C35 this gives the first equation. Receptions are balanced reception by reception with the table of C39, and related to what channels scheduled by C46. The file is a fold over the trace, compared with a map by induction.

Model: `AccountModel.v` over `NetModel.v`, `AccountSpec.v`. Proof files: `AccountProofs.v`.

Theorems (proved): `C96_lines`, `C96_set_up`, `C96_PhyRx_refuted`, `C96_sends`, `C96_receptions`, `C96_unreported`, `C96_file`, `C96_silent_refuted`.

Findings: C96_PhyRx_refuted (the source PhyRx does not exist; whether Config::Connect then ends the program depends on the version of ns-3, C96_set_up covers both), C96_silent_refuted (a broadcast out of everybody's reach is neither PhyTxDrop nor received), and the byte count mixes all sources and devices. Lines as tuples, not text; the serialized size of a packet is an arbitrary function; of the lines of the other sinks, those of EchoRx are in C97 and those of TraceIpForward and TraceIpDrop are left out.

### C97 What the delay program sends and measures

The relay theorem of C91 is proved again for a network layer that changes or drops packets on the way (induction over the path and the pending events); the lines at the server follow by induction over the path, with the TTL as bound. Header fields are read back by induction over their bytes. The number of packets follows from monotonicity and exactness of the rounding on whole numbers, the send times from its relative error; Flocq gives both for binary64.

Model: `MeasureModel.v` over `NetModel.v` and `ReactModel.v`, `ForwardSpec.v`, `MeasureSpec.v`. Proof files: `ForwardProofs.v`, `MeasureProofs.v`.

Theorems (proved): `C97_EchoRx`, `C97_delay`, `C97_ttl_refuted`, `C97_packets`, `C97_in_time`, `C97_doubles`, `C97_every_interval_refuted`.

Findings: the delays contain no transmission or queueing time of the links on an idle path (C97_delay; see C91), packets are lost silently on paths longer than the TTL (C97_ttl_refuted), and the last multiple of the interval may go without a packet (C97_every_interval_refuted). Of ns-3, SeqTsHeader, UdpClient's packets, UdpServer's stripping of 28 bytes of headers and the decrement of the TTL are modelled as known. Routes are static; the lines have no uid. What the client does with MaxPackets = 0 depends on the version of ns-3 and is left out.

### C98 Records of forwarding and drops by IPv4

The forwarding theorem of C97 gives the receptions; the lines follow by induction over the path with the TTL.

Model: `IpTraceModel.v` over `MeasureModel.v`, `IpTraceSpec.v`. Proof files: `ForwardProofs.v`, `PropIpTrace.v`.

Theorems (proved): `C98_records`, `C98_count`, `C98_filter`, `C98_texts`.

Finding: drops are not filtered by destination although forwards are, so lines of other traffic get between (C98_filter). Of ns-3, the sinks are called as IpForward does; ICMP messages about drops are not modelled, nor are drops for other reasons. Lines have no uid.

### C99 Installation by name

Induction over the names; the devices before a missing name are those of an installation of C64.

Model: `NamesModel.v` over `HelperModel.v`. Proof files: `HelperProofs.v`, `PropNames.v`.

Theorems (proved): `C99_isl_names`, `C99_leo_names`, `C99_isl_missing`, `C99_leo_missing`.

Finding: a misspelt name is undefined behaviour (C99_isl_missing, C99_leo_missing). Names::Find is modelled as a table.
