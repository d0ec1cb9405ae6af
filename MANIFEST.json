{
 "claims": [
  {
   "property": "C01",
   "status": "proved",
   "theorems": [
    "C01_on_orbital_sphere"
   ],
   "note": "Exact arithmetic; for every history of calls."
  },
  {
   "property": "C02",
   "status": "proved",
   "theorems": [
    "C02_in_orbital_plane",
    "C02_bound_attained"
   ],
   "note": "Exact arithmetic; for every history of calls."
  },
  {
   "property": "C03",
   "status": "proved",
   "theorems": [
    "C03_velocity"
   ],
   "note": "Exact arithmetic."
  },
  {
   "property": "C04",
   "status": "proved",
   "theorems": [
    "C04_velocity_vs_motion"
   ],
   "note": "Exact arithmetic. Finding: above 90 degrees GetVelocity points against the motion."
  },
  {
   "property": "C05",
   "status": "proved",
   "theorems": [
    "C05_speed_law",
    "C05_speed_decreases",
    "C05_displacement"
   ],
   "note": "Exact arithmetic. Finding: progress uses the Earth radius instead of the orbit radius."
  },
  {
   "property": "C06",
   "status": "proved",
   "theorems": [
    "C06_attributes_read_back",
    "C06_altitude_binary64_refuted",
    "C06_read_back_binary64",
    "C06_inclination_binary64_refuted"
   ],
   "note": "Finding: in binary64 neither round trip is exact, e.g. altitude 0.1 km or inclination 13 degrees; the deviation is bounded."
  },
  {
   "property": "C07",
   "status": "proved",
   "theorems": [
    "C07_bounded_staleness",
    "C07_bounded_staleness_path",
    "C07_no_update_without_call",
    "C07_toggled_precision_refuted"
   ],
   "note": "Any arithmetic. Companion theorems show that both hypotheses on the history are needed."
  },
  {
   "property": "C08",
   "status": "proved",
   "theorems": [
    "C08_zero_precision_exact",
    "C08_zero_precision_path"
   ],
   "note": "Any arithmetic."
  },
  {
   "property": "C09",
   "status": "proved",
   "theorems": [
    "C09_notifications"
   ],
   "note": "Any arithmetic. Finding: update sequences accumulate with every setter call."
  },
  {
   "property": "C10",
   "status": "proved",
   "theorems": [
    "C10_construction",
    "C10_histories"
   ],
   "note": "Any arithmetic. Finding: construction reads an uninitialised member."
  },
  {
   "property": "C11",
   "status": "proved",
   "theorems": [
    "C11_circular_enumeration"
   ],
   "note": "Exact arithmetic."
  },
  {
   "property": "C12",
   "status": "proved",
   "theorems": [
    "C12_round_distinct",
    "C12_round_covers",
    "C12_periodic",
    "C12_distinct_binary64"
   ],
   "note": "Exact arithmetic, and binary64 distinctness for all 16-bit sizes."
  },
  {
   "property": "C13",
   "status": "proved",
   "theorems": [
    "C13_polar_enumeration",
    "C13_largest_latnum",
    "C13_distinct_off_poles"
   ],
   "note": "Exact arithmetic. Finding: LatNum+1 rows per meridian; the largest LatNum never leaves meridian 0."
  },
  {
   "property": "C14",
   "status": "proved",
   "theorems": [
    "C14_polar_on_sphere"
   ],
   "note": "Exact arithmetic."
  },
  {
   "property": "C15",
   "status": "proved",
   "theorems": [
    "C15_circular_failure",
    "C15_polar_failure",
    "C15_circular_calls",
    "C15_polar_calls"
   ],
   "note": "Any arithmetic; per state and for call sequences."
  },
  {
   "property": "C16",
   "status": "proved",
   "theorems": [
    "C16_constellation",
    "C16_failure",
    "C16_success_iff"
   ],
   "note": "Exact arithmetic. Finding: int overflow for large planes*sats. MobilityHelper of ns-3 is modelled from its documentation."
  },
  {
   "property": "C17",
   "status": "proved",
   "theorems": [
    "C17_ground_grid",
    "C17_ground_grid_count",
    "C17_last_meridian",
    "C17_poles_shared"
   ],
   "note": "Exact arithmetic. Finding: co-located nodes at the poles, last meridians (nearly) empty, 32-bit wrap of the count."
  },
  {
   "property": "C18",
   "status": "proved",
   "theorems": [
    "C18_earth_position",
    "C18_correct_latitudes",
    "C18_equator_and_45",
    "C18_geographic_refuted"
   ],
   "note": "Exact arithmetic. Finding: latitude is doubled."
  },
  {
   "property": "C19",
   "status": "proved",
   "theorems": [
    "C19_locations",
    "C19_pair"
   ],
   "note": "Exact arithmetic; for the list of locations read from the file."
  },
  {
   "property": "C20",
   "status": "proved",
   "theorems": [
    "C20_line_of_sight_exact",
    "C20_below_ground_refuted"
   ],
   "note": "Exact arithmetic. The refuted variant shows that points below ground on both ends are handled wrongly."
  },
  {
   "property": "C21",
   "status": "proved",
   "theorems": [
    "C21_line_of_sight_symmetric",
    "C21_line_of_sight_symmetric_binary64"
   ],
   "note": "Exact arithmetic for all points; binary64 when the computed radii differ."
  },
  {
   "property": "C22",
   "status": "proved",
   "theorems": [
    "C22_colocated_binary64"
   ],
   "note": "Every binary64 position, NaN and infinities included."
  },
  {
   "property": "C23",
   "status": "proved",
   "theorems": [
    "C23_isl_power",
    "C23_isl_power_any"
   ],
   "note": ""
  },
  {
   "property": "C24",
   "status": "proved",
   "theorems": [
    "C24_cutoff_closed_form",
    "C24_cutoff_horizon",
    "C24_cutoff_decreases_in_elevation",
    "C24_cutoff_increases_in_altitude",
    "C24_cutoff_even"
   ],
   "note": "Exact arithmetic. Also: a negative ElevationAngle acts like the positive one."
  },
  {
   "property": "C25",
   "status": "proved",
   "theorems": [
    "C25_mask_sound"
   ],
   "note": "Exact arithmetic."
  },
  {
   "property": "C26",
   "status": "proved",
   "theorems": [
    "C26_boundary_cut_off",
    "C26_zenith",
    "C26_exact_mask"
   ],
   "note": "Exact arithmetic. Finding: the mask is stricter than configured."
  },
  {
   "property": "C27",
   "status": "proved",
   "theorems": [
    "C27_budget",
    "C27_two_results",
    "C27_symmetric",
    "C27_symmetric_binary64"
   ],
   "note": "Symmetry also in binary64 for all inputs."
  },
  {
   "property": "C28",
   "status": "proved",
   "theorems": [
    "C28_below_ground"
   ],
   "note": "Exact arithmetic."
  },
  {
   "property": "C29",
   "status": "proved",
   "theorems": [
    "C29_frame_round_trip"
   ],
   "note": "Any checksum function."
  },
  {
   "property": "C30",
   "status": "proved",
   "theorems": [
    "C30_frame_size"
   ],
   "note": ""
  },
  {
   "property": "C31",
   "status": "proved",
   "theorems": [
    "C31_oversize_misparsed",
    "C31_mtu_refuted"
   ],
   "note": "Finding: legal packets of 1493..1500 bytes under the default MTU are mis-parsed."
  },
  {
   "property": "C32",
   "status": "proved",
   "theorems": [
    "C32_length_wrap"
   ],
   "note": "Finding: payload length field wraps at 65536."
  },
  {
   "property": "C33",
   "status": "proved",
   "theorems": [
    "C33_transmit_assertions"
   ],
   "note": "The assertions cannot fail in any execution at all, also of misconfigured devices."
  },
  {
   "property": "C34",
   "status": "proved",
   "theorems": [
    "C34_busy_iff_pending"
   ],
   "note": ""
  },
  {
   "property": "C35",
   "status": "proved",
   "theorems": [
    "C35_accepted_in_order",
    "C35_reference"
   ],
   "note": "Stated for executions in which the queue is not replaced once a packet was accepted (SetQueue drops what the old queue holds); C35_reference covers the others with a reference transmitter."
  },
  {
   "property": "C36",
   "status": "proved",
   "theorems": [
    "C36_no_overlap",
    "C36_begin_times",
    "C36_durations"
   ],
   "note": ""
  },
  {
   "property": "C37",
   "status": "proved",
   "theorems": [
    "C37_send_result",
    "C37_other_destination",
    "C37_no_queue"
   ],
   "note": "Also the outcomes for destinations that are not a Mac48Address and for devices without queue."
  },
  {
   "property": "C38",
   "status": "proved",
   "theorems": [
    "C38_destination_of_period",
    "C38_single_destination",
    "C38_own_destination_refuted"
   ],
   "note": "Finding: queued packets are transmitted with the destination of the packet that opened the busy period (mock-net-device.cc:349-381); C38_own_destination_refuted is the wrong delivery."
  },
  {
   "property": "C39",
   "status": "proved",
   "theorems": [
    "C39_receive_table",
    "C39_receive_total"
   ],
   "note": ""
  },
  {
   "property": "C40",
   "status": "proved",
   "theorems": [
    "C40_trace_sources",
    "C40_no_sniffer_on_reception",
    "C40_tx_drop"
   ],
   "note": "Finding: the Sniffer trace source is only fired on transmission."
  },
  {
   "property": "C41",
   "status": "proved",
   "theorems": [
    "C41_opposite_sides",
    "C41_receivers",
    "C41_address_change_refuted",
    "C41_members"
   ],
   "note": "C41_opposite_sides needs pairwise distinct addresses and no change of address or type while attached; C41_address_change_refuted shows a ground-to-ground delivery otherwise."
  },
  {
   "property": "C42",
   "status": "proved",
   "theorems": [
    "C42_leo_result"
   ],
   "note": ""
  },
  {
   "property": "C43",
   "status": "proved",
   "theorems": [
    "C43_isl_unicast"
   ],
   "note": ""
  },
  {
   "property": "C44",
   "status": "proved",
   "theorems": [
    "C44_isl_broadcast"
   ],
   "note": "A device attached twice receives its own broadcast (dropped by Receive, C52) and others' twice."
  },
  {
   "property": "C45",
   "status": "proved",
   "theorems": [
    "C45_isl_unknown"
   ],
   "note": "Finding: IsMulticast returns true but frames to multicast addresses never leave the inter-satellite channel."
  },
  {
   "property": "C46",
   "status": "proved",
   "theorems": [
    "C46_reception_delay",
    "C46_receptions_conserved",
    "C46_order"
   ],
   "note": ""
  },
  {
   "property": "C47",
   "status": "proved",
   "theorems": [
    "C47_cut_off"
   ],
   "note": ""
  },
  {
   "property": "C48",
   "status": "proved",
   "theorems": [
    "C48_stable_indices",
    "C48_attach_index"
   ],
   "note": ""
  },
  {
   "property": "C49",
   "status": "proved",
   "theorems": [
    "C49_isl_detach",
    "C49_isl_still_receives",
    "C49_leo_detached_silent",
    "C49_leo_detach"
   ],
   "note": "Finding: Detach does not stop reception on inter-satellite channels; LeoMockChannel::Detach with a bad index is undefined behaviour."
  },
  {
   "property": "C50",
   "status": "proved",
   "theorems": [
    "C50_address_changed",
    "C50_detach_leaves",
    "C50_still_receives"
   ],
   "note": "Finding: the LEO channel's index is keyed by the address at Attach."
  },
  {
   "property": "C51",
   "status": "proved",
   "theorems": [
    "C51_integrity"
   ],
   "note": "Payloads up to 1492 bytes; longer ones are misparsed (C31)."
  },
  {
   "property": "C52",
   "status": "proved",
   "theorems": [
    "C52_not_itself"
   ],
   "note": ""
  },
  {
   "property": "C53",
   "status": "proved",
   "theorems": [
    "C53_never_fails",
    "C53_exact"
   ],
   "note": "Any arithmetic in which the two constant-speed delays are not negative; in exact arithmetic without that hypothesis. The transmission time is any function that is not negative for positive rates."
  },
  {
   "property": "C54",
   "status": "proved",
   "theorems": [
    "C54_line_of_sight"
   ],
   "note": "Exact arithmetic."
  },
  {
   "property": "C55",
   "status": "proved",
   "theorems": [
    "C55_complete",
    "C55_negative_last_time",
    "C55_missing_file"
   ],
   "note": "Files are modelled as the list of waypoints readable before the first failure; a failing read gives an arbitrary time. Reading a negative last time is a finding (C55_negative_last_time)."
  },
  {
   "property": "C56",
   "status": "proved",
   "theorems": [
    "C56_exact",
    "C56_cases"
   ],
   "note": "The loop overwrites the sample by the failing read after updated was set; the extra sample and the new last time are unspecified (C56_exact)."
  },
  {
   "property": "C57",
   "status": "proved",
   "theorems": [
    "C57_install",
    "C57_missing_file",
    "C57_carried_over",
    "C57_trajectories_refuted"
   ],
   "note": "Finding: identical time ranges in two files lose the second trajectory (C57_trajectories_refuted). Whether AddWaypoint of ns-3 accepts the extra waypoint is not modelled."
  },
  {
   "property": "C58",
   "status": "proved",
   "theorems": [
    "C58_rewind",
    "C58_rewind_none_later",
    "C58_attribute",
    "C58_file_attribute",
    "C58_file_attribute_fresh"
   ],
   "note": "Full, including the attributes that neither rewind nor open a file."
  },
  {
   "property": "C59",
   "status": "proved",
   "theorems": [
    "C59_location",
    "C59_orbit",
    "C59_ground_file",
    "C59_orbit_file",
    "C59_unique",
    "C59_missing_file"
   ],
   "note": "Finding: bad input is never reported; a malformed record ends the file silently and a missing file gives no nodes. A negative count of planes or satellites wraps around modulo 65536."
  },
  {
   "property": "C60",
   "status": "proved",
   "theorems": [
    "C60_locations",
    "C60_orbits",
    "C60_binary64",
    "C60_short_total",
    "C60_refuted"
   ],
   "note": "C60_refuted: the default precision of six digits loses information; 1234567 is printed as 1.23457e+06 and read as 1234570. Infinities and NaN are not modelled."
  },
  {
   "property": "C61",
   "status": "proved",
   "theorems": [
    "C61_arp_exact",
    "C61_nd_exact",
    "C61_arp_resolves",
    "C61_nd_resolves",
    "C61_same_index",
    "C61_refuted"
   ],
   "note": "C61_refuted: the helpers select the peer's address by GetIfIndex of the peer, which is its index on its node, not in the container."
  },
  {
   "property": "C62",
   "status": "proved",
   "theorems": [
    "C62_presets",
    "C62_unknown_name"
   ],
   "note": "Any arithmetic. With assertions disabled the code would keep the previous values; assertions are modelled as enabled."
  },
  {
   "property": "C63",
   "status": "proved",
   "theorems": [
    "C63_links_close",
    "C63_installed_links_close"
   ],
   "note": "binary64 with arbitrary libm functions and arbitrary positions, including NaN and infinite ones. C63_installed_links_close covers the devices a preset installs: they carry the default threshold and take every frame that is not cut off."
  },
  {
   "property": "C64",
   "status": "proved",
   "theorems": [
    "C64_addresses",
    "C64_leo_install",
    "C64_isl_install",
    "C64_types_refuted"
   ],
   "note": "Finding: a DeviceType attribute set by the user silently overrides the side given to Install (C64_types_refuted)."
  },
  {
   "property": "C65",
   "status": "proved",
   "theorems": [
    "C65_leo_channel",
    "C65_channel_attributes_ignored",
    "C65_isl_channel"
   ],
   "note": "Finding: SetChannelAttribute of PropagationDelay or PropagationLoss on LeoChannelHelper has no effect; IslHelper honours it."
  },
  {
   "property": "C66",
   "status": "proved",
   "theorems": [
    "C66_refused",
    "C66_setters",
    "C66_queue_refuted"
   ],
   "note": "Findings: SetQueue leaves the inter-satellite queues at their default; SetDeviceAttribute of an attribute that only LeoMockNetDevice has always aborts, because it is set on the inter-satellite factory first; SetChannelAttribute has no effect on the gateway and terminal channels."
  },
  {
   "property": "C67",
   "status": "proved",
   "theorems": [
    "C67_networks",
    "C67_separate"
   ],
   "note": "Traffic is shown separate for sends and simulator events after the installation; reconfiguration afterwards is outside the second theorem."
  },
  {
   "property": "C68",
   "status": "proved",
   "theorems": [
    "C68_caches",
    "C68_stack_once",
    "C68_unresolved"
   ],
   "note": "Finding: ArpCacheHelper uses the device index on the node as index into the interface container, so the caches filled by LeoHelper resolve nothing (except one satellite from the gateways if there are exactly two satellites). Ipv4AddressHelper of ns-3 is modelled as an arbitrary function."
  },
  {
   "property": "C69",
   "status": "proved",
   "theorems": [
    "C69_capture",
    "C69_enable",
    "C69_promiscuous_refuted"
   ],
   "note": "Finding (C69_promiscuous_refuted): the promiscuous flag has no effect, a capture that is not promiscuous contains frames for other hosts. The bytes of records are arbitrary functions of time and frame."
  },
  {
   "property": "C70",
   "status": "proved",
   "theorems": [
    "C70_own_file",
    "C70_shared_stream",
    "C70_no_queue",
    "C70_once_refuted"
   ],
   "note": "Finding (C70_once_refuted): LeoHelper writes each event of a LEO device three times to a shared stream. The texts of lines are arbitrary functions of mark, path, time and packet."
  },
  {
   "property": "C71",
   "status": "proved",
   "theorems": [
    "C71_elevation_read_back",
    "C71_elevation_read_back_binary64",
    "C71_elevation_binary64_refuted"
   ],
   "note": "Finding: in binary64 the round trip is not exact, e.g. 30 degrees. The bound is proved with Flocq; no assumption is made on the libm functions."
  },
  {
   "property": "C72",
   "status": "proved",
   "theorems": [
    "C72_comes_to_rest",
    "C72_helpers"
   ],
   "note": "An event can abort (e.g. a missing receive callback, C39); the theorem says the run then fails the same way however many events follow. The helper corollary excludes that under the hypotheses of C53."
  },
  {
   "property": "C73",
   "status": "proved",
   "theorems": [
    "C73_delivered",
    "C73_end_to_end"
   ],
   "note": "Recipients, hearing, delay and power are those at the moment of transmission. A LEO recipient is whoever is in the map of the other side then. The link state of the recipient plays no role: detached devices still receive (C49)."
  },
  {
   "property": "C74",
   "status": "proved",
   "theorems": [
    "C74_group_addresses",
    "C74_group_addresses_refuted",
    "C74_isl_drops",
    "C74_leo_floods"
   ],
   "note": "Finding: IP multicast does not work over inter-satellite links although IsMulticast is true, and on LEO links groups cannot be told apart at the link layer."
  },
  {
   "property": "C75",
   "status": "proved",
   "theorems": [
    "C75_position_binary64"
   ],
   "note": "`accurate` (absolute error of at most 2^-52 for finite arguments, finite results) is a hypothesis on libm, met by any faithfully rounded implementation; the example exhibits functions that meet it. Time::GetSeconds is one rounded division in the model, ns-3 goes through int64x64_t."
  },
  {
   "property": "C76",
   "status": "proved",
   "theorems": [
    "C76_velocity_binary64",
    "C76_direction_binary64"
   ],
   "note": "Exact velocity: what C03/C04 compute over the reals - the point a quarter turn ahead on a circle with the speed as its radius."
  },
  {
   "property": "C77",
   "status": "proved",
   "theorems": [
    "C77_line_of_sight_binary64",
    "C77_isl_link_binary64"
   ],
   "note": "The line of sight test alone uses no trigonometric function, so the first theorem has no accuracy hypothesis. The margin K / 10^6 comes from the square root of the discriminant, whose error is the square root of the rounding error."
  },
  {
   "property": "C78",
   "status": "proved",
   "theorems": [
    "C78_cutoff_binary64",
    "C78_ground_link_binary64",
    "C78_mask_sound_binary64"
   ],
   "note": "The zero-margin mask theorem holds because the formula of the code multiplies the sine of the angle by the distance of the satellite instead of the radius of the sphere, which makes the cut-off too short by more than the rounding error; at an angle of exactly 0 a margin is unavoidable, which the second theorem states."
  },
  {
   "property": "C79",
   "status": "proved",
   "theorems": [
    "C79_ticks",
    "C79_trace",
    "C79_negative_duration",
    "C79_failures",
    "C79_orbit_file",
    "C79_missing_file",
    "C79_columns",
    "C79_csv_refuted",
    "C79_trace_binary64"
   ],
   "note": "C79_csv_refuted: the header announces columns separated by commas, the lines separate them by colons. Further findings: the positions at time 0 and (unless the precision equals the duration) at the end are not printed: 60 s at 1 s give 59 instants; six digits leave up to 5 m per 1000 km. The text of a time and the behaviour of Config::Connect without satellites depend on the version of ns-3 and are parameters."
  },
  {
   "property": "C80",
   "status": "proved",
   "theorems": [
    "C80_positions",
    "C80_staleness",
    "C80_isl_hears",
    "C80_isl_true_positions",
    "C80_isl_delivery",
    "C80_ground_hears",
    "C80_positions_binary64"
   ],
   "note": "Composes the satellites as InstallOrbits leaves them with the network, whose positions were a parameter so far (HelperModel). Findings: a negative precision freezes the whole constellation at its starting points; between refreshes links are judged by old points, off by at most ground_speed times the precision. Two satellites at exactly the same point are excluded for the reals (GetLos divides by their distance; C22 has the doubles). At the instant of a refresh either point may be reported, depending on the order of the events."
  },
  {
   "property": "C81",
   "status": "proved",
   "theorems": [
    "C81_polar_binary64",
    "C81_grid_binary64",
    "C81_locations_binary64",
    "C81_on_the_ground",
    "C81_latitude_refuted"
   ],
   "note": "Accuracy of sine and cosine is a hypothesis (`accurate`, met by correctly rounded functions, ex_accurate). The doubling of the latitude (pi/90) is C18."
  },
  {
   "property": "C82",
   "status": "proved",
   "theorems": [
    "C82_isl_hears_binary64",
    "C82_ground_hears_binary64"
   ],
   "note": "Whole chain from installation to the decision; hypotheses `accurate` and `accurate_tan` on the C library, met by correctly rounded functions. The speed of the delay model is any whole number of m/s up to 10^9: IslHelper uses 299792458, LeoChannelHelper 299702458. ns3::Seconds and the event queue are as in C80. The mask holds exactly because the ground station code puts stations 10 m below the radius of the link model, which outweighs all rounding."
  },
  {
   "property": "C83",
   "status": "proved",
   "theorems": [
    "C83_received_only_if_heard",
    "C83_isl_receptions",
    "C83_ground_receptions",
    "C83_isl_receptions_binary64",
    "C83_ground_receptions_binary64",
    "C83_isl_delivery_binary64",
    "C83_ground_delivery_binary64"
   ],
   "note": "Converse of C73 for whole histories. The threshold and error model are those of the receiver when the event runs; the link is judged when the frame is transmitted (so a link that closes while the frame is in flight still delivers it). ns3::Seconds is an arbitrary function of the computed delay; accuracy of the C library is a hypothesis as in C75 to C82."
  },
  {
   "property": "C84",
   "status": "proved",
   "theorems": [
    "C84_configuration",
    "C84_no_effect",
    "C84_no_effect_of_interface",
    "C84_read_back",
    "C84_mtu_refuted"
   ],
   "note": "The default data rate is 32768 bit/s. Refuted expectation: a packet longer than the MTU is not sent (C84_mtu_refuted). Each value of the network configuration is covered by C84_configuration, so that no attribute is written to the place of another."
  },
  {
   "property": "C85",
   "status": "proved",
   "theorems": [
    "C85_disposed",
    "C85_disposed_once",
    "C85_dispose_call",
    "C85_own_calls",
    "C85_in_flight",
    "C85_sending_to_disposed",
    "C85_invisible",
    "C85_detached",
    "C85_at_rest",
    "C85_isl_refuted",
    "C85_error_model_refuted"
   ],
   "note": "Two refuted expectations: detaching from an inter-satellite channel makes disposal safe (C85_isl_refuted); the error model of a device sees all frames that arrive (C85_error_model_refuted: not those that arrive after disposal)."
  },
  {
   "property": "C86",
   "status": "proved",
   "theorems": [
    "C86_reported",
    "C86_installed_twice",
    "C86_aggregated_once",
    "C86_initialize",
    "C86_flow_refuted"
   ],
   "note": "Finding: LeoChannelHelper::Install connects the queue traces and MockNetDevice::DoInitialize connects them again; every enqueue and dequeue is reported twice (C86_flow_refuted: 128 bytes wait, 256 are reported). IslHelper aggregates no interface, so its devices report nothing. ConnectQueueTraces of ns-3 (a separate connection per call) is modelled from its documentation."
  },
  {
   "property": "C87",
   "status": "proved",
   "theorems": [
    "C87_outcome",
    "C87_nodes",
    "C87_world",
    "C87_never_fails",
    "C87_stations",
    "C87_receptions",
    "C87_delivery",
    "C87_receptions_binary64",
    "C87_placed",
    "C87_users_refuted",
    "C87_islRate_refuted"
   ],
   "note": "Two refuted expectations. C87_users_refuted: the users are not at their coordinates (GetEarthPosition doubles the latitude, C17). C87_islRate_refuted: the variable islRate (\"2Gbps\") is never read; the ISL devices run at 32768 bit/s unless --islRate is given. The programs' routing, applications and trace sinks, and ns-3's IPv4 layer beyond address assignment, are not modelled; C87_receptions and C87_delivery hold for whatever traffic they send. C87_placed: positions as the other theorems assume exist for whatever can be set up. C87_receptions_binary64 assumes sine, cosine and tangent accurate as in C75 to C83."
  },
  {
   "property": "C88",
   "status": "proved",
   "theorems": [
    "C88_order",
    "C88_overtaking",
    "C88_in_order",
    "C88_satellite_drifts",
    "C88_constellation",
    "C88_constellation_in_order",
    "C88_same_period",
    "C88_order_refuted"
   ],
   "note": "C88_order_refuted: the ISL channel reorders. Two satellites 1200 km high in neighbouring planes, refreshed every second: a packet sent 2 us before the refresh arrives after the one sent 2 us behind it, because all of the movement of a second (4 km, 13 us) takes effect at once. The delay model is the distance over a constant speed (ns-3's ConstantSpeedPropagationDelayModel), in reals."
  },
  {
   "property": "C89",
   "status": "proved",
   "theorems": [
    "C89_waiting",
    "C89_default_room",
    "C89_no_waiting",
    "C89_slots",
    "C89_throughput"
   ],
   "note": "The transmission time by rate and size is a parameter (ns-3's DataRate::CalculateBytesTxTime); C89_throughput asks of it only that 8 n 10^9 <= bps (t + 1). The room in the queue does not count the packet being transmitted, so the bound L*H is reached (example)."
  },
  {
   "property": "C90",
   "status": "proved",
   "theorems": [
    "C90_reentrant",
    "C90_at_once",
    "C90_no_assertion",
    "C90_end_sink",
    "C90_assertion_refuted"
   ],
   "note": "Answers are calls of Send, any number on any devices, decided from the whole history of observations. Not covered: sinks of the traces that Send itself fires, and calls other than Send. Finding (C90_end_sink, C90_assertion_refuted): TransmitComplete sets READY before the PhyTxEnd trace and clears m_currentPkt after it, so that sending from that trace aborts the simulation."
  },
  {
   "property": "C91",
   "status": "proved",
   "theorems": [
    "C91_relay",
    "C91_latency",
    "C91_store_and_forward_refuted"
   ],
   "note": "Each hop has to work at the instant the packet gets there (attached, up, unicast address, heard, above the threshold, no error); devices on the path send once, so that no packet waits. Finding (C91_store_and_forward_refuted): the channels count the transmission time only between nodes without mobility models, so that multi-hop latency does not depend on data rates."
  },
  {
   "property": "C92",
   "status": "proved",
   "theorems": [
    "C92_plane",
    "C92_links",
    "C92_relay"
   ],
   "note": "Over the real numbers. At the instants at which an update is due, one of two satellites may report the position of the update before, so that these instants are excluded (C80 bounds the error there). Visibility does not depend on time, inclination or the plane: a plane of fewer than three satellites, or one flying too low, never has inter-satellite links."
  },
  {
   "property": "C93",
   "status": "proved",
   "theorems": [
    "C93_plane",
    "C93_polar",
    "C93_station",
    "C93_global",
    "C93_high_latitude",
    "C93_distinct_positions_refuted"
   ],
   "note": "Over the real numbers; C93_high_latitude needs no restriction to instants without updates. The global condition is sufficient, not necessary (with an odd number of planes fewer would do, because the planes are spread over a full turn and with an even number they coincide in pairs on a polar orbit). Finding (C93_distinct_positions_refuted): installed satellites need not be apart: there is no phase shift between planes, so that on polar orbits the first satellites of all planes coincide at time 0, where inter-satellite links between them are cut off (C22)."
  },
  {
   "property": "C94",
   "status": "proved",
   "theorems": [
    "C94_separate",
    "C94_rewrites",
    "C94_again",
    "C94_counter",
    "C94_waiting",
    "C94_ends",
    "C94_retry_refuted"
   ],
   "note": "Findings: C94_retry_refuted (a packet that Send refused because the queue was full cannot be sent again by the caller: it has already become a frame), C94_ends (sending the same packet object on two devices, or twice on one, while it waits makes the program stop later). Receive callbacks get objects that are not sent again; admission looks at the packets, not at the byte counter; the assertion is that of ns-3's Queue::DoDequeue."
  },
  {
   "property": "C95",
   "status": "proved",
   "theorems": [
    "C95_contact",
    "C95_pass_ends",
    "C95_same_satellite",
    "C95_loses_contact",
    "C95_persists"
   ],
   "note": "Over the real numbers. The bounds are sufficient, not the exact length of a pass. w is orbital speed over the radius of the Earth, not of the orbit (C05), so that passes are shorter than on the real orbit."
  },
  {
   "property": "C96",
   "status": "proved",
   "theorems": [
    "C96_lines",
    "C96_set_up",
    "C96_PhyRx_refuted",
    "C96_sends",
    "C96_receptions",
    "C96_unreported",
    "C96_file",
    "C96_silent_refuted"
   ],
   "note": "Findings: C96_PhyRx_refuted (the source PhyRx does not exist; whether Config::Connect then ends the program depends on the version of ns-3, C96_set_up covers both), C96_silent_refuted (a broadcast out of everybody's reach is neither PhyTxDrop nor received), and the byte count mixes all sources and devices. Lines as tuples, not text; the serialized size of a packet is an arbitrary function; of the lines of the other sinks, those of EchoRx are in C97 and those of TraceIpForward and TraceIpDrop are left out."
  },
  {
   "property": "C97",
   "status": "proved",
   "theorems": [
    "C97_EchoRx",
    "C97_delay",
    "C97_ttl_refuted",
    "C97_packets",
    "C97_in_time",
    "C97_doubles",
    "C97_every_interval_refuted"
   ],
   "note": "Findings: the delays contain no transmission or queueing time of the links on an idle path (C97_delay; see C91), packets are lost silently on paths longer than the TTL (C97_ttl_refuted), and the last multiple of the interval may go without a packet (C97_every_interval_refuted). Of ns-3, SeqTsHeader, UdpClient's packets, UdpServer's stripping of 28 bytes of headers and the decrement of the TTL are modelled as known. Routes are static; the lines have no uid. What the client does with MaxPackets = 0 depends on the version of ns-3 and is left out."
  },
  {
   "property": "C98",
   "status": "proved",
   "theorems": [
    "C98_records",
    "C98_count",
    "C98_filter",
    "C98_texts"
   ],
   "note": "Finding: drops are not filtered by destination although forwards are, so lines of other traffic get between (C98_filter). Of ns-3, the sinks are called as IpForward does; ICMP messages about drops are not modelled, nor are drops for other reasons. Lines have no uid."
  },
  {
   "property": "C99",
   "status": "proved",
   "theorems": [
    "C99_isl_names",
    "C99_leo_names",
    "C99_isl_missing",
    "C99_leo_missing"
   ],
   "note": "Finding: a misspelt name is undefined behaviour (C99_isl_missing, C99_leo_missing). Names::Find is modelled as a table."
  }
 ]
}