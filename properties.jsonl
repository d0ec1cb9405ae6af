{"id": "C01", "title": "Satellite stays on its orbital sphere", "statement": "A position computed by LeoCircularOrbitMobilityModel always lies at distance exactly 1000*(6371.009 + Altitude) metres from the Earth's centre (exact real arithmetic).", "quantifier": "every altitude, inclination, start longitude, start offset and simulation time", "why_tests_cant": "The distance must be exact at every instant of a continuous orbit; a test samples a few instants.", "anchors": ["model/leo-circular-orbit-mobility-model.cc:CalcPosition", "model/leo-circular-orbit-mobility-model.cc:RotatePlane", "model/leo-circular-orbit-mobility-model.cc:PlaneNorm"]}
{"id": "C02", "title": "Satellite stays in its orbital plane", "statement": "A computed position lies in the plane through the Earth's centre whose unit normal makes the configured inclination with the polar axis and whose node has longitude start longitude + 2*pi*now/24h; hence its height over the equatorial plane never exceeds radius*|sin(inclination)|, and that bound is attained.", "quantifier": "every inclination, longitude, offset, altitude and time", "why_tests_cant": "A universally quantified trigonometric identity over continuous parameters.", "anchors": ["model/leo-circular-orbit-mobility-model.cc:PlaneNorm", "model/leo-circular-orbit-mobility-model.cc:CalcPosition", "model/leo-circular-orbit-mobility-model.cc:CalcLatitude"]}
{"id": "C03", "title": "Velocity is tangential and bounded by the orbital speed", "statement": "GetVelocity is perpendicular to GetPosition, its magnitude never exceeds the circular-orbit speed of the altitude, and it equals that speed whenever the returned position is the one of the current instant.", "quantifier": "every model state with a non-zero position, including states whose cached position is stale", "why_tests_cant": "Staleness depends on the interleaving of queries and periodic updates; tests query only at update instants.", "anchors": ["model/leo-circular-orbit-mobility-model.cc:DoGetVelocity", "model/leo-circular-orbit-mobility-model.cc:GetSpeed"]}
{"id": "C04", "title": "Velocity direction agrees with the motion along the orbit", "statement": "Along the orbital plane, the derivative of the position with respect to time is a positive multiple of GetVelocity for inclinations of at most 90 degrees and a negative multiple for inclinations above 90 degrees (retrograde satellites report a velocity opposite to their motion).", "quantifier": "every inclination, altitude, longitude, offset and time", "why_tests_cant": "Relates a derivative to a returned vector at every instant.", "anchors": ["model/leo-circular-orbit-mobility-model.cc:DoGetVelocity", "model/leo-circular-orbit-mobility-model.cc:GetProgress"]}
{"id": "C05", "title": "Orbital speed follows the circular-orbit law, ground-referenced progress", "statement": "The reported speed v satisfies v^2 * r = 3.98600436e14 m^3/s^2 up to the constants of the code (r orbit radius) and strictly decreases with altitude; the in-plane displacement per second, however, is v*r/6371.009km, which equals v only at altitude 0.", "quantifier": "every altitude above the centre of the Earth and every pair of instants", "why_tests_cant": "A law over a continuum of altitudes and instants.", "anchors": ["model/leo-circular-orbit-mobility-model.cc:GetSpeed", "model/leo-circular-orbit-mobility-model.cc:GetProgress"]}
{"id": "C06", "title": "Orbit attributes read back what was written", "statement": "After SetAttribute/Set of Altitude or Inclination, reading the attribute returns the written value in exact arithmetic and writing one never changes the other; in binary64 neither round trip is exact, but after every history the altitude differs by at most 2^-32 km (altitudes up to a million km) and the inclination by at most 2^-50 relatively.", "quantifier": "every altitude and every non-zero inclination", "why_tests_cant": "A round trip over all doubles; the failing binary64 values are not the ones tests pick.", "anchors": ["model/leo-circular-orbit-mobility-model.cc:SetAltitude", "model/leo-circular-orbit-mobility-model.cc:GetAltitude", "model/leo-circular-orbit-mobility-model.cc:SetInclination", "model/leo-circular-orbit-mobility-model.cc:GetInclination"]}
{"id": "C07", "title": "Bounded staleness of the cached position", "statement": "With Precision = p > 0 and at least one position/altitude/inclination call made since then, GetPosition always returns the exact position of some instant at most p before now, for the current orbit parameters.", "quantifier": "every history of setter calls, queries and clock advances", "why_tests_cant": "Quantifies over all interleavings of setters with the periodic update.", "anchors": ["model/leo-circular-orbit-mobility-model.cc:Update", "model/leo-circular-orbit-mobility-model.cc:DoGetPosition"]}
{"id": "C08", "title": "Zero precision means always exact", "statement": "With Precision = 0, GetPosition returns the position of the current instant and no periodic update is ever scheduled by the model.", "quantifier": "every history of setter calls and clock advances", "why_tests_cant": "Needs every instant between events.", "anchors": ["model/leo-circular-orbit-mobility-model.cc:Update", "model/leo-circular-orbit-mobility-model.cc:DoGetPosition"]}
{"id": "C09", "title": "Course change notifications per period", "statement": "Every setter call made while Precision > 0 starts one more perpetual update sequence: the number of pending updates equals the number of such calls and each of them fires one CourseChange per period, for ever.", "quantifier": "every history with constant positive precision", "why_tests_cant": "An unbounded-time count over arbitrary call histories.", "anchors": ["model/leo-circular-orbit-mobility-model.cc:Update", "model/leo-circular-orbit-mobility-model.cc:DoSetPosition", "model/leo-circular-orbit-mobility-model.cc:SetAltitude", "model/leo-circular-orbit-mobility-model.cc:SetInclination"]}
{"id": "C10", "title": "Construction and zero inclination are the only undefined orbit states", "statement": "Attribute construction evaluates a position before the inclination has any value; setting Inclination 0 is rejected by an assertion; after construction no setter sequence without inclination 0 reaches an undefined value.", "quantifier": "every sequence of attribute and method calls", "why_tests_cant": "An uninitialised read is invisible to a test that only looks at the final value.", "anchors": ["model/leo-circular-orbit-mobility-model.cc:LeoCircularOrbitMobilityModel", "model/leo-circular-orbit-mobility-model.cc:SetInclination", "model/leo-circular-orbit-mobility-model.cc:Update"]}
{"id": "C11", "title": "Circular allocator enumerates the constellation plane by plane", "statement": "The k-th call (from 0) of LeoCircularOrbitAllocator::GetNext returns (2*pi*(floor(k/S) mod P)/P, 2*pi*(k mod S)/S, 0) for P orbits and S satellites per orbit.", "quantifier": "every k and all positive P, S", "why_tests_cant": "Unbounded number of calls and sizes.", "anchors": ["model/leo-circular-orbit-position-allocator.cc:GetNext"]}
{"id": "C12", "title": "Circular allocator hands out every slot exactly once per round", "statement": "Any P*S consecutive calls return pairwise distinct positions, covering each (plane, slot) pair exactly once, and the sequence then repeats; distinctness survives rounding to binary64 for all 16-bit P and S.", "quantifier": "all positive P, S and every starting call", "why_tests_cant": "Quantifies over all sizes, and floating-point collisions cannot be excluded by sampling.", "anchors": ["model/leo-circular-orbit-position-allocator.cc:GetNext"]}
{"id": "C13", "title": "Polar allocator enumeration", "statement": "The k-th call of LeoPolarPositionAllocator::GetNext returns the grid point with row k mod (LatNum+1) and column floor(k/(LatNum+1)) mod LonNum: it emits LatNum+1 rows per meridian, not LatNum. One round repeats nothing but the poles. With LatNum = 2^32-1 it never leaves the first meridian.", "quantifier": "every k and all positive LatNum < 2^32-1 and LonNum", "why_tests_cant": "Unbounded number of calls and sizes.", "anchors": ["model/leo-polar-position-allocator.cc:GetNext"]}
{"id": "C14", "title": "Polar allocator points lie on the Earth's surface", "statement": "Every returned position is at distance 6371 km from the centre; the first and last row of every meridian are the two poles, so the first and (LatNum+1)-th positions coincide with those of every other meridian.", "quantifier": "every k and all positive LatNum and LonNum", "why_tests_cant": "Identity over all grid sizes.", "anchors": ["model/leo-polar-position-allocator.cc:GetNext"]}
{"id": "C15", "title": "Allocators fail only on zero divisors", "statement": "GetNext has undefined behaviour exactly when the orbit counter wraps with NumOrbits = 0, when NumSatellites = 0, or when the polar row wraps with LonNum = 0.", "quantifier": "every state of both allocators", "why_tests_cant": "Undefined behaviour is not observable by a test.", "anchors": ["model/leo-circular-orbit-position-allocator.cc:GetNext", "model/leo-polar-position-allocator.cc:GetNext"]}
{"id": "C16", "title": "Constellation installation", "statement": "LeoOrbitNodeHelper::Install(orbits) creates, in order, planes*sats nodes per orbit, node k of an orbit having that orbit's altitude and inclination and being on the trajectory of plane floor(k/sats), slot k mod sats; it fails exactly when some planes*sats exceeds 2^31-1 (signed overflow, undefined) or a non-empty orbit has inclination 0 (assertion).", "quantifier": "every vector of orbits", "why_tests_cant": "Unbounded list of orbits of any size.", "anchors": ["helper/leo-orbit-node-helper.cc:Install"]}
{"id": "C17", "title": "Ground grid installation", "statement": "LeoGndNodeHelper::Install(lat, lon) creates exactly (lat*lon mod 2^32) nodes, node k on row k mod (lat+1) of meridian floor(k/(lat+1)) mod lon: without wrap-around the last meridian receives only max(0, lat+1-lon) nodes, and nodes 0 and lat+1 are both at the north pole.", "quantifier": "all 32-bit lat and lon", "why_tests_cant": "Quantifies over all sizes including wrap-around.", "anchors": ["helper/ground-node-helper.cc:Install", "model/leo-polar-position-allocator.cc:GetNext"]}
{"id": "C18", "title": "Ground location conversion", "statement": "GetEarthPosition(lat, lon) always lies on the 6371 km sphere, but its height over the equator is R*cos(2*lat), not R*sin(lat): +lat and -lat map to equal heights, latitude 0 is mapped to the north pole and 45 degrees to the equator. It is the geographic place only at latitudes 30 and -90.", "quantifier": "every latitude and longitude", "why_tests_cant": "Identity over all coordinates.", "anchors": ["helper/ground-node-helper.cc:GetEarthPosition"]}
{"id": "C19", "title": "Pairwise ground installation", "statement": "LeoGndNodeHelper::Install(loc1, loc2) and Install(file) create one node per location in order, each at the constant position of its location.", "quantifier": "all location lists", "why_tests_cant": "Unbounded list.", "anchors": ["helper/ground-node-helper.cc:Install"]}
{"id": "C20", "title": "Inter-satellite line of sight is exact", "statement": "For two distinct positions outside the Earth, IslPropagationLossModel::GetLos answers true iff no point of the straight segment between them is within the Earth's radius of the centre.", "quantifier": "every pair of distinct positions outside the Earth (exact arithmetic)", "why_tests_cant": "A geometric equivalence over a six-dimensional continuum.", "anchors": ["model/isl-propagation-loss-model.cc:GetLos"]}
{"id": "C21", "title": "Line of sight is symmetric", "statement": "GetLos(a,b) = GetLos(b,a) for positions outside the Earth (exact arithmetic).", "quantifier": "every pair of distinct positions outside the Earth", "why_tests_cant": "Continuum of inputs, with a tie-breaking branch.", "anchors": ["model/isl-propagation-loss-model.cc:GetLos"]}
{"id": "C22", "title": "Co-located satellites have no line of sight", "statement": "In binary64, GetLos(p,p) is false for every finite position p, so two satellites at the same position can never exchange packets.", "quantifier": "every finite binary64 vector", "why_tests_cant": "2^192 inputs.", "anchors": ["model/isl-propagation-loss-model.cc:GetLos", "model/isl-propagation-loss-model.cc:DoCalcRxPower"]}
{"id": "C23", "title": "ISL received power", "statement": "IslPropagationLossModel yields exactly the transmit power when there is line of sight and exactly -1000 dBm when not.", "quantifier": "every transmit power and pair of positions", "why_tests_cant": "Continuum of inputs.", "anchors": ["model/isl-propagation-loss-model.cc:DoCalcRxPower"]}
{"id": "C24", "title": "LEO cutoff distance closed form", "statement": "For a satellite at radius h >= R and elevation e in [0,90) degrees the cutoff distance is sqrt(h^2 sin^2 e + h^2 - R^2) - h sin e; at elevation 0 it is the horizon distance, and it strictly decreases in the elevation and increases in the altitude.", "quantifier": "every satellite radius and elevation angle", "why_tests_cant": "Continuum of inputs.", "anchors": ["model/leo-propagation-loss-model.cc:GetCutoffDistance"]}
{"id": "C25", "title": "LEO elevation mask is sound", "statement": "If LeoPropagationLossModel does not cut off a link between a satellite and a station not above the Earth radius of the model, the satellite is seen from the station at an elevation of at least ElevationAngle.", "quantifier": "every station position inside the closed Earth ball, satellite position outside, elevation in [0,90)", "why_tests_cant": "Geometric inequality over a continuum.", "anchors": ["model/leo-propagation-loss-model.cc:GetCutoffDistance", "model/leo-propagation-loss-model.cc:DoCalcRxPower"]}
{"id": "C26", "title": "LEO elevation mask is stricter than configured", "statement": "For 0 < e < 90 every surface station that sees a satellite at exactly elevation e is cut off, and even a satellite in the zenith is cut off iff sin e > R/h.", "quantifier": "every such station/satellite pair", "why_tests_cant": "Boundary behaviour on a continuum.", "anchors": ["model/leo-propagation-loss-model.cc:GetCutoffDistance"]}
{"id": "C27", "title": "LEO link budget", "statement": "A link that is not cut off receives txPower - AtmosphericLoss - FreeSpacePathLoss - LinkMargin, a cut off link exactly -1000 dBm; the result is symmetric in the two ends.", "quantifier": "every transmit power, loss setting and pair of positions; symmetry also in binary64", "why_tests_cant": "Continuum of inputs.", "anchors": ["model/leo-propagation-loss-model.cc:DoCalcRxPower"]}
{"id": "C28", "title": "LEO propagation inside the Earth", "statement": "If the farther end is below the model's Earth radius the link can still be accepted or unconditionally refused depending on the sign of h^2(1+sin^2 e) - R^2.", "quantifier": "every pair of positions below the surface", "why_tests_cant": "Continuum of inputs, including those the unit tests of the module actually use.", "anchors": ["model/leo-propagation-loss-model.cc:GetCutoffDistance"]}
{"id": "C29", "title": "Frame round trip", "statement": "A payload of at most 1492 bytes sent with SendTo destination d and protocol q is handed to the receiving stack as exactly the same bytes, with protocol q and the sender's address, whatever its length (padding included).", "quantifier": "every payload up to 1492 bytes, protocol, source and destination address, FCS on or off", "why_tests_cant": "All byte strings.", "anchors": ["model/mock-net-device.cc:AddHeader", "model/mock-net-device.cc:Receive"]}
{"id": "C30", "title": "Frame size", "statement": "A frame on the wire is max(46, payload+8)+18 bytes: never less than 64 bytes, 26 bytes over any payload of at least 38 bytes.", "quantifier": "every payload", "why_tests_cant": "All lengths.", "anchors": ["model/mock-net-device.cc:AddHeader"]}
{"id": "C31", "title": "Oversize frames are mis-parsed", "statement": "A payload of 1493 to 65527 bytes (which includes legal packets of 1493..1500 bytes under the default MTU of 1500) is delivered with protocol = payload+8 and with the 8-byte LLC/SNAP header in front of the payload.", "quantifier": "every payload of that size", "why_tests_cant": "All byte strings of all those sizes.", "anchors": ["model/mock-net-device.cc:AddHeader", "model/mock-net-device.cc:Receive"]}
{"id": "C32", "title": "Length wrap-around is caught", "statement": "A payload whose encapsulated size is at least 65536 and congruent to at most 1500 mod 65536 triggers the receiver's padding assertion; all other sizes above 1492 are mis-parsed as above with protocol (payload+8) mod 65536.", "quantifier": "every payload of at least 65528 bytes", "why_tests_cant": "All byte strings of unbounded size.", "anchors": ["model/mock-net-device.cc:AddHeader", "model/mock-net-device.cc:Receive"]}
{"id": "C33", "title": "Transmit state machine never trips its assertions", "statement": "In every execution of devices that were given a node, a queue and a receive callback, the assertions on the transmit state and on the packet in transmission never fail, whatever the interleaving of Send, attach/detach, address changes and event processing.", "quantifier": "every sequence of API calls and simulator events, any number of devices and channels", "why_tests_cant": "All interleavings.", "anchors": ["model/mock-net-device.cc:TransmitStart", "model/mock-net-device.cc:TransmitComplete", "model/mock-net-device.cc:Send"]}
{"id": "C34", "title": "A device is busy iff one transmission is in flight", "statement": "A device is transmitting exactly when one end-of-transmission event of it is pending, never more than one, and it is idle only with an empty queue.", "quantifier": "every reachable state", "why_tests_cant": "All interleavings.", "anchors": ["model/mock-net-device.cc:TransmitStart", "model/mock-net-device.cc:TransmitComplete"]}
{"id": "C35", "title": "Accepted packets are transmitted once, in order", "statement": "The packets accepted by Send on a device are exactly those whose transmission has begun followed by those still queued, in order of acceptance: no loss, duplication or reordering before the channel.", "quantifier": "every execution (without replacing the queue after the first accepted packet; with replacement, the reference transmitter whose line is emptied)", "why_tests_cant": "All interleavings and histories.", "anchors": ["model/mock-net-device.cc:Send", "model/mock-net-device.cc:TransmitComplete"]}
{"id": "C36", "title": "Transmissions of a device do not overlap", "statement": "The beginnings of two consecutive transmissions of a device are at least the transmission time of the first plus InterframeGap apart, and exactly that if the second packet was already queued; the transmission time is the one of the device's data rate for the size of the frame.", "quantifier": "every execution (exact times: without replacing the queue after the first accepted packet)", "why_tests_cant": "All timings.", "anchors": ["model/mock-net-device.cc:TransmitStart", "model/mock-net-device.cc:TransmitComplete"]}
{"id": "C37", "title": "Send's return value", "statement": "Send returns false, with a MacTxDrop and no other effect on the transmitter, exactly when the link is down or the queue refuses the packet; otherwise true.", "quantifier": "every device state, packet, destination", "why_tests_cant": "All states.", "anchors": ["model/mock-net-device.cc:Send"]}
{"id": "C38", "title": "Destination of queued packets", "statement": "Packets that had to wait in the queue are given to the channel with the destination of the packet that found the device idle, not their own; if all packets of a busy period have one destination this is invisible, otherwise an inter-satellite unicast packet is delivered to the wrong device and never to its own.", "quantifier": "every execution", "why_tests_cant": "Needs particular interleavings of sends to different destinations.", "anchors": ["model/mock-net-device.cc:TransmitComplete", "model/mock-net-device.cc:Send", "model/isl-mock-channel.cc:TransmitStart"]}
{"id": "C39", "title": "Receive decision table", "statement": "Receive on a device ends in exactly one of: MacRxDrop (own frame), PhyRxDrop (power below RxThreshold, error model, bad FCS), or acceptance; the receive callback is called iff accepted and the destination is broadcast, multicast or the device's own address; the promiscuous callback iff accepted and installed.", "quantifier": "every frame, sender, power and device configuration", "why_tests_cant": "All frames and configurations.", "anchors": ["model/mock-net-device.cc:Receive", "model/leo-mock-net-device.cc:DoCalcRxPower"]}
{"id": "C40", "title": "Trace sources", "statement": "Along every execution of a device PhyTxBegin and PhyTxEnd alternate, starting with PhyTxBegin; MacTx is fired once per Send with the link up; PhyTxDrop comes exactly after the transmissions for which the channel schedules no reception (except broadcasts between satellites); the (non-promiscuous) Sniffer is never fired on reception although documented so.", "quantifier": "every execution", "why_tests_cant": "All histories.", "anchors": ["model/mock-net-device.cc:Receive", "model/mock-net-device.cc:TransmitStart", "model/mock-net-device.h"]}
{"id": "C41", "title": "LEO channel connects opposite sides only", "statement": "On a LeoMockChannel a packet is only ever scheduled for reception at devices of the other type than the sender's; for a sender whose indexed address is current, at exactly the devices indexed on the other side that are not cut off, in address order, regardless of the destination address. Attaching a plain MockNetDevice is undefined behaviour, and no reachable LeoMockChannel has one.", "quantifier": "every channel state, sender, destination and packet", "why_tests_cant": "All channel populations.", "anchors": ["model/leo-mock-channel.cc:TransmitStart", "model/leo-mock-channel.cc:Attach"]}
{"id": "C42", "title": "LEO channel result", "statement": "LeoMockChannel::TransmitStart returns true iff at least one reception was scheduled.", "quantifier": "every channel state, sender and packet", "why_tests_cant": "All channel populations.", "anchors": ["model/leo-mock-channel.cc:TransmitStart"]}
{"id": "C43", "title": "ISL unicast reaches only the addressed device", "statement": "On an IslMockChannel a packet to the address of an attached device is scheduled for reception at that device only (the first attached one with the address), at most once, and the result tells whether it was.", "quantifier": "every channel state, sender and packet", "why_tests_cant": "All channel populations.", "anchors": ["model/isl-mock-channel.cc:TransmitStart", "model/mock-channel.cc:GetDevice"]}
{"id": "C44", "title": "ISL broadcast reaches everybody else", "statement": "A broadcast on an IslMockChannel on which no device has the broadcast address is scheduled once for every other attachment that is not cut off, in attach order, never for the sender's own attachment, and reports success even when nobody is reached.", "quantifier": "every channel state and sender", "why_tests_cant": "All channel populations.", "anchors": ["model/isl-mock-channel.cc:TransmitStart"]}
{"id": "C45", "title": "ISL multicast and unknown destinations fail", "statement": "A packet to a destination that is neither broadcast nor the address of an attached device, in particular to any multicast address, is not delivered to anyone and reports failure, although devices report multicast support.", "quantifier": "every channel state and destination", "why_tests_cant": "All channel populations.", "anchors": ["model/isl-mock-channel.cc:TransmitStart", "model/mock-net-device.cc:IsMulticast"]}
{"id": "C46", "title": "Reception delay", "statement": "A scheduled reception happens after exactly the propagation delay (0 without delay model) if both nodes have mobility, so transmission time is not included, and after exactly the transmission time otherwise; receptions take place in the order of their times, and those of one time in the order in which they were scheduled.", "quantifier": "every pair of devices, delay model and packet", "why_tests_cant": "All configurations; the missing transmission time is masked by large propagation delays.", "anchors": ["model/mock-channel.cc:Deliver", "model/mock-channel.cc:GetPropagationDelay"]}
{"id": "C47", "title": "Cut-off in the channel", "statement": "A packet is refused by the channel iff both nodes have mobility, a loss model is set and its received power is below -900 dBm; a refused packet schedules nothing and leaves no trace.", "quantifier": "every pair of devices and packet", "why_tests_cant": "All configurations.", "anchors": ["model/mock-channel.cc:Deliver"]}
{"id": "C48", "title": "Device indices are stable", "statement": "Attach returns the number of earlier attachments, GetDevice(i) yields the device of the i-th attachment for ever, and GetNDevices never decreases, also across Detach.", "quantifier": "every history of attach and detach calls", "why_tests_cant": "All histories.", "anchors": ["model/mock-channel.cc:Attach", "model/mock-channel.cc:Detach", "model/mock-channel.cc:GetDevice"]}
{"id": "C49", "title": "Detach semantics", "statement": "Detach(i) on an IslMockChannel succeeds iff i is a valid index of a device whose link is up, and takes that link down; but a detached device keeps receiving from the inter-satellite channel; on a LeoMockChannel a detached device whose address did not change since Attach receives nothing sent later, and an out-of-range index is undefined behaviour.", "quantifier": "every history", "why_tests_cant": "All histories.", "anchors": ["model/mock-channel.cc:Detach", "model/leo-mock-channel.cc:Detach", "model/isl-mock-channel.cc:TransmitStart"]}
{"id": "C50", "title": "Address changes after Attach", "statement": "Changing a device's address after attaching it to a LeoMockChannel makes every later transmission of it fail until it is attached again, and a later Detach leaves it receiving.", "quantifier": "every channel state and new address not indexed", "why_tests_cant": "All histories.", "anchors": ["model/leo-mock-channel.cc:TransmitStart", "model/leo-mock-channel.cc:Detach", "model/mock-net-device.cc:SetAddress"]}
{"id": "C51", "title": "End-to-end integrity", "statement": "Every invocation of a device's receive callback corresponds to an earlier accepted Send of another device: same payload, same protocol, that device's address at the time of the Send as source, and a destination that is broadcast, multicast or the receiver's address.", "quantifier": "every execution in which all payloads are at most 1492 bytes", "why_tests_cant": "All interleavings, topologies and payloads.", "anchors": ["model/mock-net-device.cc:Send", "model/mock-net-device.cc:Receive", "model/mock-channel.cc:Deliver"]}
{"id": "C52", "title": "No device hears itself", "statement": "No execution ever passes a frame to the receive or promiscuous callback of the device that sent it.", "quantifier": "every execution", "why_tests_cant": "All topologies, including duplicate attachments and duplicate addresses.", "anchors": ["model/mock-net-device.cc:Receive", "model/isl-mock-channel.cc:TransmitStart"]}
{"id": "C53", "title": "Helper-installed networks never crash", "statement": "A program of LeoChannelHelper and IslHelper installations, sends and simulator events, in any order, never reaches an assertion failure or undefined behaviour: for payloads of at most 65527 bytes, MAC destinations, positive data rates, non-negative interframe gaps and delays, and fewer than 2^48 allocated addresses.", "quantifier": "every program: any number of installations with any sequence of helper calls, node lists, sends and events", "why_tests_cant": "All histories.", "anchors": ["helper/leo-channel-helper.cc:Install", "helper/isl-helper.cc:Install"]}
{"id": "C54", "title": "Inter-satellite delivery is exactly line of sight", "statement": "With an IslPropagationLossModel, transmit power at least -900 dBm, mobility models at different positions and not both satellites below the ground, a unicast ISL packet is scheduled for reception by the addressed satellite iff the Earth does not obstruct the segment between the satellites at transmission time; otherwise nothing happens.", "quantifier": "all positions, powers and packets (exact arithmetic)", "why_tests_cant": "Composition of geometry and channel over a continuum.", "anchors": ["model/isl-mock-channel.cc:TransmitStart", "model/mock-channel.cc:Deliver", "model/isl-propagation-loss-model.cc:GetLos"]}
{"id": "C55", "title": "Waypoint files are read completely and in order", "statement": "Reading a file of samples with strictly increasing times above a non-negative last time yields exactly these samples in order and then reports the end on every further call, and after every read the last time is that of the last sample. With a negative last time nothing is ever read; a missing file aborts.", "quantifier": "every such file, every prefix of the reads, every stream of values left by failing reads", "why_tests_cant": "Unbounded files.", "anchors": ["helper/leo-input-fstream-container.cc:GetNextSample"]}
{"id": "C56", "title": "Waypoint filtering", "statement": "In a general file exactly the samples later than the last time and than all previous ones are returned, except that a trailing run of older samples makes the reader report success once more, with the position of the last sample of the file and an unspecified time, which also becomes the last time.", "quantifier": "every file, every position in it and last time >= 0, every stream of values left by failing reads", "why_tests_cant": "All files.", "anchors": ["helper/leo-input-fstream-container.cc:GetNextSample"]}
{"id": "C57", "title": "Multi-file satellite installation", "statement": "LeoSatNodeHelper creates one node per file, and fails exactly if a file is missing, but a satellite whose file does not go beyond the last time of the previous one gets a single waypoint of unspecified time instead of its trajectory, because the last time is carried over between files; the expectation that every satellite gets its trajectory is refuted.", "quantifier": "every list of files and reader state", "why_tests_cant": "All file combinations.", "anchors": ["helper/satellite-node-helper.cc:Install", "helper/leo-input-fstream-container.cc:SetFile"]}
{"id": "C58", "title": "Rewinding a waypoint stream", "statement": "SetLastTime(t) makes the next read return the first sample of the file later than t, wherever the stream was; if no sample is later, a nonempty file reports success with a sample of unspecified time. Setting the attribute LastTime instead does not rewind, and setting the attribute File does not open the file: while a stream is open, reading goes on in the old file; before the first read it is the same as SetFile.", "quantifier": "every file, position in it and t >= 0", "why_tests_cant": "All files and positions.", "anchors": ["helper/leo-input-fstream-container.cc:SetLastTime", "helper/leo-input-fstream-container.cc:GetNextSample"]}
{"id": "C59", "title": "Orbit and location records are read up to the first malformed one", "statement": "A location (orbit) record is read successfully exactly if the text starts, after white space, with two (four) numbers separated by ':' with optional white space around the separators, and then exactly the text after it is left; a file is installed as the sequence of records up to the first malformed one, which is unique, and everything after that, or a missing file, is silently ignored.", "quantifier": "every text, every initial record, every value of uninitialised characters, every conversion from decimal numbers", "why_tests_cant": "All texts.", "anchors": ["model/leo-lat-long.cc:operator>>", "model/leo-orbit.cc:operator>>", "helper/ground-node-helper.cc:Install", "helper/leo-orbit-node-helper.cc:Install"]}
{"id": "C60", "title": "Printed records are read back", "statement": "Records printed with blanks after each are read back as the same list if every number is a double nearest to a decimal number of at most six significant digits (in the normal range or zero) and counts fit 16 bits; this fails for doubles with more digits.", "quantifier": "every list of records, every separators, every decimal number of at most six significant digits in the normal range of binary64", "why_tests_cant": "All lists of records.", "anchors": ["model/leo-lat-long.cc:operator<<", "model/leo-orbit.cc:operator<<"]}
{"id": "C61", "title": "ARP/ND cache priming", "statement": "Installing the ARP (ND) caches succeeds exactly if every eligible pair of devices has the address, the interface and the cache it needs; then every cache entry is the one written by the last eligible pair, or unchanged. The entries map the network address of each peer to its link-layer address if each device's index on its node is its index in the container; if all devices have the same index (one device per node), only one address has an entry, with the link-layer address of the last peer; so the map is wrong in general.", "quantifier": "every list of devices and interfaces, every initial content of the caches", "why_tests_cant": "All topologies.", "anchors": ["helper/arp-cache-helper.cc:Install", "helper/nd-cache-helper.cc:Install"]}
{"id": "C62", "title": "Constellation presets", "statement": "SetConstellation with one of the four known names configures every installed device and the channel's loss model with the published values of the named link class, whatever was configured before; any other name is rejected by assertion.", "quantifier": "every string", "why_tests_cant": "All strings.", "anchors": ["helper/leo-channel-helper.cc:SetConstellation", "model/leo-starlink-constants.h", "model/leo-telesat-constants.h"]}
{"id": "C63", "title": "Preset links close", "statement": "With every preset, a link that is not cut off by distance is received above the channel's cut-off power and, with the preset's antenna gain, above the default receive threshold, in binary64.", "quantifier": "every preset and pair of positions", "why_tests_cant": "Depends on rounding of the whole budget for all geometries.", "anchors": ["helper/leo-channel-helper.cc:SetConstellation", "model/leo-propagation-loss-model.cc:DoCalcRxPower", "model/mock-channel.cc:Deliver"]}
{"id": "C64", "title": "Channel helper structure", "statement": "LeoChannelHelper::Install and IslHelper::Install create one device per node in order (satellites first), with consecutive freshly allocated addresses, of the right type unless DeviceType was overridden, with queue and receive callback, attached with the link up to one new channel, and indexed on the right side; nothing else changes. In a whole program of installations and other operations, the addresses of all devices are consecutive in order of creation, so that devices of different channels never share one while there are at most 2^48.", "quantifier": "every pair of node lists and allocator state", "why_tests_cant": "Unbounded lists.", "anchors": ["helper/leo-channel-helper.cc:Install", "helper/isl-helper.cc:Install"]}
{"id": "C65", "title": "Channel loss and delay configuration", "statement": "The loss and delay models of a channel made by LeoChannelHelper::Install are those of the helper's own factories: values set for them with SetChannelAttribute have no effect.", "quantifier": "every sequence of helper calls before Install", "why_tests_cant": "All call orders.", "anchors": ["helper/leo-channel-helper.cc:Install", "helper/leo-channel-helper.cc:SetChannelAttribute"]}
{"id": "C66", "title": "LeoHelper setters reach the right devices", "statement": "After any sequence of LeoHelper setter calls, every installed device of each of the five groups (inter-satellite, gateway-side satellite, gateway, terminal-side satellite, terminal) has the last value set for its group (queue, rate, gap, threshold, power, gain, loss, error model, type) or the default. SetQueue reaches every group except the inter-satellite devices; loss and delay set with SetChannelAttribute reach only the inter-satellite channel; setting DeviceType, RxGain or RxLoss for all devices, or for inter-satellite devices, always aborts, and nothing else does.", "quantifier": "every sequence of setter calls, every number of nodes, every state of the network in which the new channels and devices are new", "why_tests_cant": "All call sequences and network sizes; a setter missing one of five groups is invisible where defaults agree.", "anchors": ["helper/leo-helper.cc:SetQueue", "helper/leo-helper.cc:SetDeviceAttribute", "helper/leo-helper.cc:SetChannelAttribute", "helper/isl-helper.cc:SetDeviceAttribute"]}
{"id": "C67", "title": "LeoHelper::Install makes three separate networks", "statement": "LeoHelper::Install puts one inter-satellite device and two LEO devices on each satellite and one device on each gateway and terminal, on three channels, in the order of the returned container, with consecutive addresses, and touches nothing else. Whatever is sent afterwards, a frame sent on a device of one network is only ever delivered to devices of the same network; on the gateway and terminal networks only between a satellite and a ground device.", "quantifier": "every reachable state before the installation, every list of satellites, gateways and terminals, every later sequence of sends and events", "why_tests_cant": "All sizes and all later executions.", "anchors": ["helper/leo-helper.cc:Install", "model/leo-mock-channel.cc:TransmitStart", "model/isl-mock-channel.cc:TransmitStart"]}
{"id": "C68", "title": "ARP caches after LeoHelper::Install", "statement": "On fresh nodes LeoHelper::Install fills exactly these entries: every inter-satellite cache maps the first satellite's address to the last other satellite; every satellite's gateway-side cache maps the first satellite's address to the last gateway; every gateway's cache maps the second interface's address to the last satellite; likewise for the terminal network with the first and the third interface. With one satellite and one terminal it reads past the interface container; a node given twice or with a stack aborts. Hence, unless there are exactly two satellites, no gateway resolves the address of any satellite, and no satellite resolves any gateway.", "quantifier": "all numbers of satellites, gateways and terminals, all previous cache contents, all address assignments", "why_tests_cant": "The entries depend on the device indices in networks of every size.", "anchors": ["helper/leo-helper.cc:Install", "helper/arp-cache-helper.cc:Install"]}
{"id": "C69", "title": "Pcap captures are complete, ordered and always promiscuous", "statement": "After EnablePcap of a device, the file holds the file header and then, once each and in order, every frame whose transmission the device began and every frame it received and did not drop as corrupt - whoever the frame is addressed to, with or without the promiscuous flag, and also when LeoHelper opens the same file three times. LeoChannelHelper creates no file for a device that is not of a LEO channel. Enabling fails exactly when the file name has to be made from an empty prefix or for a device without a node.", "quantifier": "every history of network operations, events and tracing calls before and after the call that do not open the same file again; all three helpers; any packet formats", "why_tests_cant": "Any interleaving of sends, receptions, errors and other captures; three streams overwriting one file.", "anchors": ["helper/isl-helper.cc:EnablePcapInternal", "helper/leo-channel-helper.cc:EnablePcapInternal", "helper/leo-helper.cc:EnablePcapInternal", "model/mock-net-device.cc:Receive"]}
{"id": "C70", "title": "Ascii captures", "statement": "After EnableAscii of a device to a file of its own, the file has one line for each enqueued, refused, dequeued, received and corrupt packet of the device, in order; lines for the queue end when the device's queue is replaced. In a stream shared by several devices each event has as many lines as the helper made connections for its device: LeoHelper makes three for a LEO device, one with the class MockNetDevice and two with LeoMockNetDevice in the path. A device without a queue cannot be traced: the program does not continue.", "quantifier": "every history of network operations, events and tracing calls before and after that do not open the file again or use the stream; all three helpers; any line formats; all lists of devices, with repetitions", "why_tests_cant": "All executions and any number of devices on one stream.", "anchors": ["helper/isl-helper.cc:EnableAsciiInternal", "helper/leo-channel-helper.cc:EnableAsciiInternal", "helper/leo-helper.cc:EnableAsciiInternal"]}
{"id": "C71", "title": "The elevation angle reads back what was written", "statement": "GetElevationAngle after SetElevationAngle returns the written degrees in exact arithmetic; in binary64 it differs by at most 2^-50 relatively, and it is not exact (30 degrees reads back as another double).", "quantifier": "every angle, of any sign, between 2^-1000 and 2^1000 degrees in magnitude, and 0", "why_tests_cant": "A round trip over all doubles; whether the last bits survive depends on the value.", "anchors": ["model/leo-propagation-loss-model.cc:SetElevationAngle", "model/leo-propagation-loss-model.cc:GetElevationAngle"]}
{"id": "C72", "title": "Every network comes to rest", "statement": "Without further API calls the simulation ends: from every reachable state finitely many events remain, devices generate no traffic of their own, and unless an event aborts, in the end no event is pending, every device is idle with an empty queue, every transmission begun has ended, every scheduled reception has taken place, and (where the queue was not replaced) every accepted packet has been transmitted. Networks made by the channel helpers come to rest without aborting.", "quantifier": "every reachable state of every network; every program of helper installations, sends and events", "why_tests_cant": "Termination and completeness for every history and queue content cannot be sampled.", "anchors": ["model/mock-net-device.cc:TransmitComplete", "model/mock-net-device.cc:TransmitStart", "model/mock-net-device.cc:Receive", "model/mock-channel.cc:Deliver"]}
{"id": "C73", "title": "What is transmitted arrives", "statement": "When a device hands a frame of a packet of at most 1492 bytes to its channel, then every device the transmission is for (between satellites: the first one attached with the destination address, or for a broadcast address no device has, every other one; between satellites and ground: the whole other side) that the loss model does not cut off calls its receive callback with exactly that payload, protocol, sender and destination at the instant of transmission plus the propagation delay, provided the received power is not below its threshold, its error model does not refuse the frame, the frame is addressed to it, to everybody or to a group, and it is not reconfigured meanwhile - whatever else happens in the network.", "quantifier": "every reachable network, transmission, recipient and later history", "why_tests_cant": "Delivery must hold whatever other traffic, detachments and events are interleaved between transmission and reception.", "anchors": ["model/mock-net-device.cc:TransmitStart", "model/mock-net-device.cc:Receive", "model/mock-channel.cc:Deliver", "model/isl-mock-channel.cc:TransmitStart", "model/leo-mock-channel.cc:TransmitStart"]}
{"id": "C74", "title": "Multicast", "statement": "GetMulticast ignores the group: all IPv4 groups get 01:00:5e:00:00:00 and all IPv6 groups 33:33:00:00:00:00, which is the address RFC 1112 / RFC 2464 prescribe only for groups whose low 23 / 32 bits are 0. A packet sent to such an address is dropped by the sender (PhyTxDrop) on an inter-satellite link and schedules no reception; between satellites and ground it is handed up by every device of the other side that hears it, whatever the group.", "quantifier": "every group, reachable network, transmission and later history", "why_tests_cant": "The set of groups and receivers is unbounded.", "anchors": ["model/mock-net-device.cc:GetMulticast", "model/mock-net-device.cc:IsMulticast", "model/mock-net-device.cc:Receive", "model/isl-mock-channel.cc:TransmitStart", "model/leo-mock-channel.cc:TransmitStart"]}
{"id": "C75", "title": "Positions in doubles", "statement": "Computed in IEEE-754 doubles with any sine and cosine accurate to 2^-52, GetPosition never returns NaN or infinity; the distance from the Earth's centre is that of the orbit up to a relative error of 10^-13 at all times; and every coordinate is within r * n / 10^12 of the exact trajectory after n days (n >= 1), where r is the radius of the orbit: less than a millimetre after a month in low Earth orbit.", "quantifier": "every accurate sine and cosine; every history of calls with altitudes of 0 to 10^6 km, inclinations up to 360 degrees, start angles up to 10, and times up to 100000 days", "why_tests_cant": "Rounding errors of every combination of attributes and times cannot be sampled; a test has no exact reference.", "anchors": ["model/leo-circular-orbit-mobility-model.cc:CalcPosition", "model/leo-circular-orbit-mobility-model.cc:RotatePlane", "model/leo-circular-orbit-mobility-model.cc:GetProgress", "model/leo-circular-orbit-mobility-model.cc:CalcLatitude", "model/leo-circular-orbit-mobility-model.cc:PlaneNorm", "model/leo-circular-orbit-mobility-model.cc:GetSpeed", "model/leo-circular-orbit-mobility-model.cc:SetAltitude", "model/leo-circular-orbit-mobility-model.cc:SetInclination"]}
{"id": "C76", "title": "Velocities in doubles", "statement": "Computed in IEEE-754 doubles with any sine and cosine accurate to 2^-52, GetVelocity of a satellite with Precision 0 is finite, its length is the circular speed up to a relative error of 2 * 10^-12, and its coordinates are within v * n * 2 / 10^12 of the exact velocity of the trajectory after n days (n >= 1). The direction of flight turns exactly for inclinations above 90 degrees, although pi and the conversion to radians are rounded.", "quantifier": "every accurate sine and cosine; every history of calls with the ranges of C75", "why_tests_cant": "Rounding errors of every combination of attributes and times cannot be sampled.", "anchors": ["model/leo-circular-orbit-mobility-model.cc:DoGetVelocity", "model/leo-circular-orbit-mobility-model.cc:GetSpeed", "model/leo-circular-orbit-mobility-model.cc:GetProgress", "model/leo-circular-orbit-mobility-model.cc:PlaneNorm", "model/leo-circular-orbit-mobility-model.cc:CrossProduct"]}
{"id": "C77", "title": "Line of sight in doubles", "statement": "Computed in IEEE-754 doubles, the inter-satellite line of sight test decides as over the reals for all positions at least K / 10^6 apart and not below the ground, K <= 2 * 10^9 m being a bound on their distances from the centre: when the segment stays K / 10^6 clear of the Earth the transmit power is returned unchanged, and when it enters the Earth by more than K / 10^6 the result is -1000 dBm. For two satellites whose positions come from the orbit model in doubles (C75), links exist or not as on the exact orbits whenever these clear or cut the Earth by h / 500 metres, h being the larger orbit radius in km (14 m for low orbits), for 100000 days.", "quantifier": "all finite positions in the range; every accurate sine and cosine, all histories of two satellites in the ranges of C75 at altitudes of at least 1 m", "why_tests_cant": "The discriminant cancels and its sign decides; no test shows that rounding cannot flip it for any of the 2^384 pairs of positions away from the horizon.", "anchors": ["model/isl-propagation-loss-model.cc:GetLos", "model/isl-propagation-loss-model.cc:DoCalcRxPower", "model/leo-circular-orbit-mobility-model.cc:DoGetPosition"]}
{"id": "C78", "title": "Ground-link cut-off in doubles", "statement": "Computed in IEEE-754 doubles with an accurate tangent, the cut-off distance of the ground-link loss model is finite and within norm s / (2 * 10^8) (3.5 cm for a low orbit) of the exact slant range for every elevation angle of 0 to 89 degrees and every satellite position 100 km or more above the sphere of 6371.010 km, up to 2 * 10^9 m from the centre. So a link whose length differs from the slant range by norm s / 10^8 or more is decided as over the reals, in both directions: the transmit power less the three losses, subtracted in that order, or exactly -1000 dBm. For angles from 0.01 degrees on and stations on or below the sphere the mask holds without any margin: whatever is not cut off is at the configured elevation or above.", "quantifier": "every accurate tangent, all finite positions, angles and losses in the ranges", "why_tests_cant": "The cut-off is the difference of two numbers that nearly cancel near the zenith, divided by the tangent that grows near 90 degrees; no test shows that rounding flips no decision among 2^448 inputs.", "anchors": ["model/leo-propagation-loss-model.cc:GetCutoffDistance", "model/leo-propagation-loss-model.cc:DoCalcRxPower", "model/leo-propagation-loss-model.cc:SetElevationAngle"]}
{"id": "C79", "title": "The tracing program", "statement": "The program leo-circular-orbit-tracing-example prints a header and then, for every multiple of the precision strictly before the duration (and for the duration itself exactly if it equals the precision), one line per satellite in the order of installation: the time, the number of the satellite, the point of its Kepler trajectory at that time and its circular speed; nothing else, and then it ends normally. In doubles a reader of the printed six digits finds each coordinate within 5 millionths of the orbital radius (plus 2 * 10^-12 of the radius per simulated day) and the speed within 6 millionths. A negative duration ends it after the header, orbits that cannot be installed end it before the header. With an orbit file the satellites are those of the records of the file; a missing file is a constellation without satellites.", "quantifier": "all lists of orbits, precisions, durations, file contents; every accurate sine and cosine for the doubles", "why_tests_cant": "Number of satellites, duration and precision are unbounded, and ties between the events of the satellites, of the same satellite and of the end of the simulation decide which lines appear.", "anchors": ["examples/leo-circular-orbit-tracing-example.cc:main", "examples/leo-circular-orbit-tracing-example.cc:CourseChange", "model/leo-circular-orbit-mobility-model.cc:Update", "helper/leo-orbit-node-helper.cc:Install"]}
{"id": "C80", "title": "A network over a constellation follows its orbits", "statement": "Satellites installed at time 0 and then left to the simulator are, at every later moment, found at the point of their Kepler trajectory at the last multiple of the precision (at a multiple itself possibly the one before), at the present point for precision 0, and for ever at the starting point for a negative precision; with a precision of at least 0 they are never farther from their true place than the speed of the orbit plus that of the turning Earth times the precision. Over an inter-satellite channel between two such nodes a device hears another exactly if the straight line between the two reported points misses the Earth, at the sender's power, and the delay is the distance over the speed of light; in terms of the true points this holds outside a margin of one refresh about the horizon. A frame sent over such a link is handed up after exactly that delay. Over a ground channel a station and a satellite hear each other, in both directions, exactly up to the slant range that belongs to the mask, hence only above the mask. In doubles the reported points stay within 2 * 10^-12 of the radius per simulated day of the trajectory.", "quantifier": "all lists of orbits, precisions, times, pairs of satellites, stations at or below the radius of the model, states of the network, schedules of pending updates; every accurate sine and cosine for the doubles", "why_tests_cant": "Constellations, times and interleavings of updates with transmissions are unbounded, and the decision depends on a geometric condition over a continuum of positions.", "anchors": ["model/leo-circular-orbit-mobility-model.cc:Update", "model/leo-circular-orbit-mobility-model.cc:DoGetPosition", "helper/leo-orbit-node-helper.cc:Install", "model/isl-mock-channel.cc:TransmitStart", "model/isl-propagation-loss-model.cc:GetLos", "model/leo-mock-channel.cc:TransmitStart", "model/leo-propagation-loss-model.cc:DoCalcRxPower"]}
{"id": "C81", "title": "Ground stations in doubles", "statement": "Computed in IEEE-754 doubles with sine and cosine accurate to 2^-52, every station of InstallGrid and every point of the polar allocator is finite and within 0.2 micrometres per coordinate of its grid point, for any number of calls and any numbers of rows and meridians of 32 bits (except the largest LatNum); the grid has as many stations as in exact arithmetic. Every station of InstallLocations with latitude and longitude up to 360 degrees is within 0.2 micrometres of the point at colatitude twice the latitude. All of them are within a micrometre of 6371000 m from the centre, below the 6371010 m of the ground link model. Refuted: that stations given by latitude and longitude are near that place; in doubles, too, they can be 9000 km away.", "quantifier": "all grid sizes, numbers of calls, lists of locations, and all sine and cosine functions accurate to 2^-52", "why_tests_cant": "There are 2^64 grids and 2^128 locations; rounding differs at each of them.", "anchors": ["model/leo-polar-position-allocator.cc:GetNext", "helper/ground-node-helper.cc:Install", "helper/ground-node-helper.cc:GetEarthPosition"]}
{"id": "C82", "title": "The links of an installed network in doubles", "statement": "With satellites installed by InstallOrbits, stations by InstallGrid or InstallLocations, and positions, distances, line of sight, cut-off and delay all computed in doubles: a satellite hears another, at the full power, if the straight line between their exact trajectories at the refreshed instants clears the Earth by h/500 m (h the larger radius in km: 15 m for low orbits), and does not if the line cuts that far into it. A station and a satellite hear each other in both directions, with the link budget as power, if their exact places are within the slant range of the mask less 2 * 10^-8 of the radius (plus 10^-11 for each simulated day), and do not if farther than the slant range plus that. Up to 40000 km and 100 days nothing is heard below the mask at all, measured from the exact station to the exact trajectory. The delay is computed from a time within h * n * 10^-8 m (satellites) or H * n * 10^-11 m (ground, H in m) divided by the speed of the delay model of the exact one, n the days simulated.", "quantifier": "all lists of orbits up to a million km, precisions, times up to 100000 days, pairs of satellites, stations, masks from 0 to 89 degrees, link budgets of at least -900 dBm, all states of the network, all accurate sine, cosine and tangent functions", "why_tests_cant": "The decision depends on rounding errors accumulated from the installation to the comparison, over unbounded constellations and times.", "anchors": ["model/isl-propagation-loss-model.cc:GetLos", "model/leo-propagation-loss-model.cc:GetCutoffDistance", "model/leo-propagation-loss-model.cc:DoCalcRxPower", "model/mock-channel.cc:Deliver", "helper/leo-orbit-node-helper.cc:Install", "helper/ground-node-helper.cc:Install"]}
{"id": "C83", "title": "What is received was heard, and what is heard arrives, also in doubles", "statement": "In every execution from a reachable world without pending events, every payload that reaches a receive callback was handed by its sender, as a frame that decapsulates to that payload, protocol, source and destination, to the sender's channel in an earlier step; the transmission was for the receiver, the link between them was open at that time, the reception comes exactly one link delay later with the power of the link then, and the receiver, at the reception, found it strong enough, not rejected by its error model and addressed to it. During any traffic over an installed constellation (any sends, time and events, no reconfiguration): nothing arrives between satellites that was not sent while the line between their reported positions was clear of the Earth, and nothing arrives between a station and a satellite that was not sent while the satellite stood at or above the mask and within the slant range. With everything computed in IEEE-754 doubles the same holds up to the margins of C82 (the mask without any margin up to 40000 km and 100 days); and, conversely, what is sent over a link clear by these margins arrives at the receive callback once the event queue is drained, after the light time up to h * n * 10^-8 m or H * n * 10^-11 m.", "quantifier": "all reachable start worlds at rest, all sequences of operations (for constellations: all traffic), all lists of orbits, precisions, satellites, stations, masks and link budgets of C80 and C82, all accurate sine, cosine and tangent functions", "why_tests_cant": "It excludes deliveries over closed links in executions of any length, over every constellation, and includes rounding.", "anchors": ["model/mock-channel.cc:Deliver", "model/isl-mock-channel.cc:TransmitStart", "model/leo-mock-channel.cc:TransmitStart", "model/mock-net-device.cc:TransmitStart", "model/mock-net-device.cc:Receive", "model/isl-propagation-loss-model.cc:DoCalcRxPower", "model/leo-propagation-loss-model.cc:DoCalcRxPower"]}
{"id": "C84", "title": "Configuration is last-write-wins, and the MTU, interface index and SendFrom have no effect", "statement": "In every execution, every attribute of a device (node, address, data rate, gap, threshold, powers, gain, loss, error model, callbacks, device type) has the value of the last setting of that attribute of that device, or its default if there was none: no operation, event or setting of something else changes it. The MTU reads back as the last value modulo 2^16 (default 1500), GetIfIndex reads the last index and uninitialised memory if none was set, SetMtu always returns true and SendFrom always false; and any execution of the network goes exactly as it would without these calls: in particular packets longer than the MTU are sent and received. Aggregating interfaces and initialising devices does not change the network either.", "quantifier": "all executions of any length, all devices, all attributes and values", "why_tests_cant": "That nothing else changes an attribute, and that calls have no effect on any later behaviour, concerns all interleavings of settings, traffic and events.", "anchors": ["model/mock-net-device.cc:43-110", "model/mock-net-device.cc:301-315", "model/mock-net-device.cc:582-600", "model/mock-net-device.cc:733-760", "model/mock-net-device.cc:556-567", "model/mock-net-device.cc:716-724", "model/mock-net-device.cc:779-792"]}
{"id": "C85", "title": "Disposal of devices: what is safe and what is not", "statement": "Dispose empties exactly the node, channel, queue, current packet and error model of a device, once, and leaves its link state, transmitter state and address, and everything else, alone. Afterwards: its own Send dereferences null while its link is up and drops the packet otherwise; the pending end of a transmission of it fails an assertion; frames in flight to it are received as by a device without error model; a transmission of any other device that has it as a recipient dereferences null (a device stays in the index of its channel). A device that is apart (no pending events for it, in no index of a LEO channel and on no inter-satellite channel) is disposed of invisibly: every execution that does not call it goes exactly as without the disposal, up to the members of that device. Detaching an idle device from its LEO channel makes it apart; on inter-satellite channels Detach leaves it on the list, so that sending to it after disposal dereferences null. In a network at rest any devices may be disposed of in any order.", "quantifier": "all reachable worlds, all devices, all executions of any length after the disposal", "why_tests_cant": "Invisibility of a disposal is a simulation between two executions for all operation sequences; tests dispose at the end of a run, when nothing is pending.", "anchors": ["model/mock-net-device.cc:288-299", "model/mock-channel.cc:40-120", "model/leo-mock-channel.cc:60-200", "model/isl-mock-channel.cc:40-110"]}
{"id": "C86", "title": "Flow control reports: each byte is reported once per connection, so twice for ground links", "statement": "For every device and every queue interface connected to its queue and no other: during any calls, traffic and events the bytes that the interface was told to be waiting (enqueued less dequeued) change by the number of connections times the change of the bytes that wait in the queue; an interface without connections is told nothing. A device set up as LeoChannelHelper::Install does it (connect, aggregate, attach) and then initialised has two connections, because DoInitialize connects the aggregated interface again, so that its interface always believes twice the bytes to be waiting; an interface that is only aggregated is connected once, by initialisation, and is told exactly the bytes waiting. Initialisation fails an assertion exactly if there is an interface but no queue.", "quantifier": "all reachable systems of devices and interfaces, all executions of any length, all packets, queue disciplines and traffic", "why_tests_cant": "The reports add up over unbounded traffic, and a doubled report does not show in any delivery, only in the dynamic queue limits above.", "anchors": ["helper/leo-channel-helper.cc:360-396", "model/mock-net-device.cc:254-286", "model/mock-net-device.cc:569-660"]}
{"id": "C87", "title": "The networks of the example programs: what they consist of, and what their traffic does", "statement": "For all values of their options, the set-up of leo-delay-tracing-example and leo-bulk-send-example succeeds exactly if the orbits can be installed, the constellation is a published one and there are at most 65534 ground-network nodes. The nodes are the satellites in the order of the orbits, then latGws * lonGws (modulo 2^32) gateways, the client and the server; every node has a device of the chosen link class on one LEO channel, and if ISLs are enabled every satellite has a second one on one ISL channel; all IPv4 addresses differ, and the traffic is sent to the server's address in 10.1/16. In every execution of any traffic over these networks nothing aborts and no undefined behaviour occurs; every packet that is received came either over a ground link between a satellite and a station above the elevation threshold and within its slant range, or over an ISL between satellites in sight of each other, T being the sending time plus the distance at that time over the speed; and every frame put on a channel is delivered, once, to each recipient whose link is open. The receptions also hold of doubles, up to explicit errors.", "quantifier": "all option values, all orbits, grids and users, all traffic and executions of any length, real and double arithmetic", "why_tests_cant": "The examples are run with one default and no assertion; that every reception respects geometry for every option and every interleaving cannot be sampled.", "anchors": ["examples/leo-delay-tracing-example.cc:90-126", "examples/leo-delay-tracing-example.cc:137-206", "examples/leo-bulk-send-example.cc:42-74", "examples/leo-bulk-send-example.cc:85-145"]}
{"id": "C88", "title": "Order of arrival over a link: when frames overtake each other, and by how much", "statement": "In any execution, the frames that one device sends to another are received in the order in which they departed exactly if no frame is due before one that departed earlier. If the delay is the distance over a speed v, and the reported positions of the ends move at most at speeds sa and sb up to a lag, a frame is overtaken by at most k nanoseconds if (sa + sb) * (difference of departures + lag) <= v * (difference + k); without lag and slower than the signal nothing is overtaken. Over the links of an installed constellation up to 40000 km high (positions refreshed every `precision`, v at least 260000 km/s) overtaking is by at most a 5000th of the precision and needs departures less than a 4999th of the precision apart; with precision 0 (or negative), or departures spaced that much, frames arrive in the order of departure; two frames that depart between the same two refreshes are as far apart at arrival as at departure.", "quantifier": "all executions, all links, all orbits up to 40000 km, all precisions, all roundings of the delay to nanoseconds that are monotonic and exact on nanoseconds", "why_tests_cant": "The overtaking takes two frames within microseconds of a refresh of the positions; tests send one packet at a time between fixed positions.", "anchors": ["model/mock-channel.cc:116-129", "model/mock-channel.cc:165-208", "model/isl-mock-channel.cc:55-95", "model/leo-mock-channel.cc:54-108", "model/leo-circular-orbit-mobility-model.cc:158-180"]}
{"id": "C89", "title": "How long a packet waits at a device, and how much a device can carry", "statement": "If the transmit queue of a device admits a packet only when fewer than L are waiting (the helpers' queues: L = 100), is not replaced, and every transmission with the gap after it takes at most H, then each accepted packet is given to the channel, unchanged and in its place in the order of acceptance, not before and at most L*H after it was accepted; a packet not yet transmitted was accepted at most L*H ago. Packets that are accepted no closer together than the slots they need do not wait at all. From the start of one transmission of a device to the start of a later one there is time for the slots of all but the last, so that while devices stay as configured the bits sent in that time are at most what the data rate allows (up to one nanosecond per transmission for rounding).", "quantifier": "all executions, all devices, queues, data rates, gaps, packet sizes and arrival patterns", "why_tests_cant": "The bound is over all arrival patterns and interleavings of sending with the end of transmissions; tests send single packets to an idle device.", "anchors": ["model/mock-net-device.cc:314-400", "model/mock-net-device.cc:402-407", "model/mock-net-device.cc:663-714", "helper/leo-channel-helper.cc:41-46", "helper/isl-helper.cc:40-43"]}
{"id": "C90", "title": "Upper layers may send from within callbacks, but not from the end-of-transmission trace", "statement": "Protocols and trace sinks may call Send on any devices from within a receive or promiscuous callback, from within any trace that a reception fires, or from a link change callback. Such an execution, if it completes, ends exactly like one in which those packets are sent once the event is over: same clock, devices, channels and pending events, the same receptions in the same order, and the same sends and transmissions in the same order. The answers are sent before anything else is observed, and no assertion on the state of a transmitter ever fails. The exception is the trace of the end of a transmission (PhyTxEnd): a sink that successfully sends on the same device breaks the device. If packets were waiting, the assertion in TransmitStart fails at once; otherwise m_currentPkt is cleared after the new transmission has started, and no execution gets past the end of that transmission.", "quantifier": "all reactions of the upper layers (any function of the history), all executions, networks and queues", "why_tests_cant": "The reactions are arbitrary programs; the equivalence is over all of them and all interleavings, and the failing case needs a sink that no test installs.", "anchors": ["model/mock-net-device.cc:316-381", "model/mock-net-device.cc:384-399", "model/mock-net-device.cc:421-531", "model/mock-net-device.cc:540-554", "model/mock-net-device.cc:662-714", "model/mock-channel.cc:72-90"]}
{"id": "C91", "title": "Relayed packets arrive hop by hop after the propagation delays", "statement": "Upper layers that forward by static routes send a packet on from within the receive callback. A packet sent into a network at rest along a routed path of any length, over ground-to-satellite and inter-satellite hops mixed, is handed to the protocols exactly once at the end of each hop and nowhere else, although other devices get its signal on the LEO channels; the network then comes to rest. Hop i is left at the instant hop i-1 ends, and takes the delay that the channel gives at that instant. Between nodes with mobility models the total is the sum of the propagation delays alone: neither the length of the packet nor the data rates count on any hop, so that a packet can arrive at the last hop before the transmission on the first is over (no store and forward).", "quantifier": "all paths of any length, networks, routes, payloads of at most 1492 bytes, delay and loss models (changing with time), queues that admit a packet when empty", "why_tests_cant": "No test relays packets; the claim is about paths of every length through networks of any size, with links that move while the packet travels.", "anchors": ["model/mock-net-device.cc:315-347", "model/mock-net-device.cc:421-531", "model/mock-net-device.cc:662-714", "model/leo-mock-channel.cc:54-108", "model/isl-mock-channel.cc:55-96", "model/mock-channel.cc:115-129", "model/mock-channel.cc:164-208"]}
{"id": "C92", "title": "Links within an orbital plane are permanent or never there, with a fixed delay", "statement": "Two satellites of one orbital plane, places j and k of S, keep their distance 2 r |sin(pi (j-k)/S)| and the clearance of the line between them at all times, whatever the inclination and the plane (r: orbit radius). So over an inter-satellite channel their devices hear each other exactly if r |cos(pi (j-k)/S)| exceeds the Earth radius of the model, at any time at which no position update is due, with the full transmission power and a delay that never changes. If neighbours see each other (Earth radius < r cos(pi/S)), a packet that static routes relay from satellite to satellite along the plane over n < S hops is handed to the protocols once on every satellite on its way, on the i-th at exactly i times the delay of one hop, and the network comes to rest.", "quantifier": "all constellations, orbits, planes, numbers of satellites, times, path lengths n < S, payloads up to 1492 bytes, networks that contain the ring", "why_tests_cant": "Tests look at single positions at single times; the claim is about all times, all constellation sizes and relays of any number of hops.", "anchors": ["model/leo-circular-orbit-mobility-model.cc:95-200", "helper/leo-orbit-node-helper.cc:69-106", "model/isl-propagation-loss-model.cc:42-118", "model/isl-mock-channel.cc:55-96", "model/mock-channel.cc:115-129", "model/mock-net-device.cc:315-347"]}
{"id": "C93", "title": "Coverage: which ground stations the satellites reach, and when", "statement": "Let r be the orbit radius, D the slant range at the mask angle, g a ground station, L = (|g|^2 + r^2 - D^2)/2. At every instant without a pending position update: if r rho cos(pi/S) >= L, where rho is the length of the projection of g to the orbital plane (which turns with time), then the station and at least one of the S satellites of the plane hear each other both ways; if r rho < L, it hears none of them and none hears it. On a polar orbit with P planes and r |g| cos(pi/P) cos(pi/S) >= L every station anywhere on Earth is in touch with some satellite at all such times. A station whose latitude phi exceeds the highest latitude m of the orbit with r |g| cos(phi - m) < L never hears a satellite of it, nor is heard, at any time. The planes are not shifted against each other: satellites in the same place of different planes always have the same distance from the equatorial plane, and on a polar orbit the first satellites of all planes start at the same point.", "quantifier": "all constellations, orbits, planes, stations, mask angles in [0, 90) degrees, losses, times, networks", "why_tests_cant": "Coverage is a claim about every point of the Earth and every instant; tests evaluate single positions.", "anchors": ["model/leo-circular-orbit-mobility-model.cc:95-200", "helper/leo-orbit-node-helper.cc:69-106", "model/leo-circular-orbit-position-allocator.cc:50-78", "model/leo-propagation-loss-model.cc:75-144", "model/leo-mock-channel.cc:54-108", "model/mock-channel.cc:164-208"]}
{"id": "C94", "title": "Packet objects sent more than once", "statement": "Send works on the packet object of its caller, and the queue and m_currentPkt keep pointers to it. In a program that sends every object at most once this makes no difference: it ends in the same state, or stops for the same reason, as with a packet of its own for every Send. In general: a Send with an open link turns the object into its frame even if the queue then refuses it, so that sending the object once more transmits a frame in a frame, whose receiver gets the whole first frame, at least 26 bytes longer, as payload. The byte counter of a queue is never more than the bytes waiting in it. Sending an object that waits in a queue, from whatever device, leaves the counter at least 26 bytes too low for as long as the queue is not replaced: the queue never becomes empty again in any continuation that does not stop, and taking the last packet stops the program with the queue's assertion.", "quantifier": "all programs, objects, networks, devices, admission rules, checksums, transmission times", "why_tests_cant": "Depends on the order of sends and ends of transmissions, and the damage shows arbitrarily later.", "anchors": ["model/mock-net-device.cc:662-714", "model/mock-net-device.cc:197-252", "model/mock-net-device.cc:349-381", "model/mock-channel.cc:197-203"]}
{"id": "C95", "title": "How long contacts between ground stations and satellites last", "statement": "Let r be the orbit radius, g the station, D the slant range at the mask angle, L = (|g|^2 + r^2 - D^2)/2 >= 0, and w the angle by which the code advances the satellite per second. If station and satellite are in touch (one hears the other) in two states of the network, with dt seconds between the refreshed instants, then 2 L^2 <= r^2 |g|^2 (1 + cos (w dt) + earth_rate dt). With exact positions, from any instant on and for any angle phi up to 2.9 with r^2 |g|^2 (1 + cos phi + earth_rate (phi/w + 1 ns)) < 2 L^2 there is an instant at most phi/w + 1 ns later at which they are not in touch, whatever the network was doing. Conversely, if the satellite was so near that at its greatest speed over ground it cannot have covered the rest of the way to D, both hear each other.", "quantifier": "all orbits, places in them, stations, mask angles in [0, 90) degrees, losses, precisions, states of the network, times", "why_tests_cant": "A claim about all instants of a pass, for every satellite and every station.", "anchors": ["model/leo-circular-orbit-mobility-model.cc:95-200", "model/leo-propagation-loss-model.cc:75-144", "model/leo-mock-channel.cc:54-108", "model/mock-channel.cc:164-208"]}
{"id": "C96", "title": "What the drop and transfer records of the delay program account for", "statement": "With traceDrops and traceTxRx the program leo-delay-tracing-example writes one line for each firing of MacTxDrop, PhyTxDrop, MacRxDrop, PhyRxDrop, or of MacTx, MacRx, of any device, in order; the byte count on a line is the total size of the packets on it and all lines before, modulo 2^64. The calls of Send on a device equal its MacTxDrop lines, its transmissions and its waiting packets together. The receptions that the channels schedule at a device equal those to come, its MacRxDrop, PhyRxDrop and MacRx lines, and the receptions of good frames for other hosts, which have no line. There is no source PhyRx, which the program asks for too. A broadcast between satellites that nobody hears leaves no line.", "quantifier": "all options, executions of all networks, devices, packet sizes", "why_tests_cant": "An equation between counts over whole executions of arbitrary networks.", "anchors": ["examples/leo-delay-tracing-example.cc:42-48", "examples/leo-delay-tracing-example.cc:216-236", "model/mock-net-device.cc:97-177", "model/mock-net-device.cc:316-381", "model/mock-net-device.cc:421-531", "model/mock-net-device.cc:662-714"]}
{"id": "C97", "title": "What the delay program sends and measures", "statement": "EchoRx of leo-delay-tracing-example writes the sequence number that the client put into a packet, modulo 2^32, and the time since the client made it; a packet shorter than the header of 12 bytes ends the program. If a packet of the client goes into a network at rest and is forwarded by IPv4 along a path of ground and inter-satellite links between nodes with mobility models, the server writes exactly one line if the TTL is at least the number of hops, and the delay on it is the sum of the propagation delays, each at the time when the packet gets to the hop: transmission times do not count. With a smaller TTL there is no line. The client is told to send duration / interval packets, truncated: undefined for an interval of 0 and from 2^64 on, an error from 2^32 on, and otherwise less than one away from the exact quotient, also in doubles. All of them are sent before the program stops if the interval is 2 ns or more; not every multiple of the interval before the end gets one.", "quantifier": "all networks, paths of any length, packets, send times, TTLs; all durations and intervals, for every rounding that is monotonic and accurate (binary64 is)", "why_tests_cant": "Paths, networks and numbers of packets are unbounded, and the rounding of the division matters.", "anchors": ["examples/leo-delay-tracing-example.cc:33-40", "examples/leo-delay-tracing-example.cc:206-214", "examples/leo-delay-tracing-example.cc:251-255", "model/mock-net-device.cc:193-314", "model/mock-net-device.cc:421-531"]}
{"id": "C98", "title": "Records of forwarding and drops by IPv4", "statement": "With traceFwd, leo-delay-tracing-example writes for a packet that is sent into a network at rest and forwarded along a path exactly one line for each node between the ends that the packet gets to, in order, with the time of arrival there (propagation delays only), the device it came in at, the one it goes out at, and its addresses. If the TTL is smaller than the number of hops there are TTL - 1 of them and then exactly one line 'TTL expired' at the node where the TTL is used up; otherwise none about drops. Lines about forwarding are written only for packets to the server, lines about drops for packets to anywhere; each reason has a text of its own.", "quantifier": "all networks, paths of any length, packets, TTLs and server addresses", "why_tests_cant": "Paths and TTLs are unbounded.", "anchors": ["examples/leo-delay-tracing-example.cc:50-85", "examples/leo-delay-tracing-example.cc:236-244", "model/mock-net-device.cc:193-314", "model/mock-net-device.cc:421-531"]}
{"id": "C99", "title": "Installation by name", "statement": "IslHelper::Install and LeoChannelHelper::Install on names do the same as on the nodes with these names, in order, with one device for every time that a name is given. If and only if some name belongs to no node, a null pointer is dereferenced; the helpers do not check for it. It happens after the devices of the names before it have been installed.", "quantifier": "all lists of names, name tables, helpers and worlds with a new channel and new devices", "why_tests_cant": "Lists of names are unbounded.", "anchors": ["helper/isl-helper.cc:250-262", "helper/isl-helper.cc:224-247", "helper/leo-channel-helper.cc:412-434", "helper/leo-channel-helper.cc:352-401"]}
