{"id": "C01", "title": "Tag header round trip", "statement": "Whatever tag number, class (application/context) and length a tag header is written with, reading it back gives the same tag number, class and length and leaves exactly the bytes that followed it; the octets written are the ones clause 20.2.1 of the BACnet standard prescribes.", "quantifier": "all tag numbers 0..255, both classes, all lengths 0..2^32-1, all trailing byte strings", "why_tests_cant": "2^41 headers and unboundedly many suffixes; the interesting boundaries (14/15, 4/5, 253/254, 65535/65536) interact.", "anchors": ["encoding/encoder.go: (*Encoder).tag, (*Encoder).tagNum", "encoding/decoder.go: (*Decoder).tagNumberAndValue, tagNumber, value", "encoding/general.go: tagMeta"]}
{"id": "C02", "title": "Unsigned and enumerated values are minimal and round-trip", "statement": "An unsigned value written on the wire occupies the smallest number of octets (1 to 4) that can hold it, big-endian, and reading that many octets gives the same value and leaves the following bytes untouched.", "quantifier": "all 2^32 values, all trailing bytes", "why_tests_cant": "4 billion values with four length classes; tests pick a handful.", "anchors": ["encoding/encoder.go: (*Encoder).unsigned, unsigned24", "encoding/decoder.go: (*Decoder).unsigned, unsigned24", "encoding/general.go: valueLength"]}
{"id": "C03", "title": "Object identifiers round-trip and do not alias", "statement": "Two different object identifiers with type <= 1023 and instance <= 4194303 never have the same encoding, and decoding an encoded identifier gives the identifier back.", "quantifier": "all pairs of (type, instance) in range", "why_tests_cant": "2^32 identifiers; injectivity is a statement about pairs.", "anchors": ["encoding/encoder.go: (*Encoder).objectId", "encoding/decoder.go: (*Decoder).objectId"]}
{"id": "C04", "title": "Out-of-range object identifiers are not aliased on the wire", "statement": "An object identifier whose type or instance does not fit the 10+22 bit field is rejected rather than sent under the identity of a different, valid object.", "quantifier": "all uint16 types and uint32 instances outside the field", "why_tests_cant": "the out-of-range space is far larger than the in-range one.", "anchors": ["encoding/encoder.go: (*Encoder).objectId", "encoding/validate.go: isValidObjectType"]}
{"id": "C05", "title": "Application values round-trip through the codec", "statement": "A value of any dynamic type the library can write (null, boolean, uint32, real, double, string, enumerated, object identifier) is read back by the library's own decoder as the same value (enumerated as its number), with no error and with exactly the following bytes left.", "quantifier": "all values of those types, all trailing bytes; strings of any length below 2^32-1 octets", "why_tests_cant": "unbounded set of strings, 2^64 doubles and arbitrary suffixes.", "anchors": ["encoding/appdata.go: (*Encoder).AppData, (*Decoder).AppData, AppDataOfTag"]}
{"id": "C06", "title": "Signed integers round-trip through the codec", "statement": "An int32 written by the library is read back by the library as the same int32.", "quantifier": "all 2^32 int32 values", "why_tests_cant": "the failing values form two intervals; a random test of small or negative numbers misses them.", "anchors": ["encoding/appdata.go: (*Encoder).AppData case int32", "encoding/decoder.go: signed, signed24", "encoding/general.go: valueLength"]}
{"id": "C07", "title": "Written application values follow the standard's encoding", "statement": "The octets the library writes for a value are the ones clause 20.2 of the BACnet standard prescribes for that datatype, so that any conforming peer reads the same value.", "quantifier": "all values of every dynamic type the library writes", "why_tests_cant": "a self round-trip test cannot see an error made identically on both sides; conformance must hold for every value.", "anchors": ["encoding/appdata.go: (*Encoder).AppData"]}
{"id": "C08", "title": "Standard-conforming application values are read correctly", "statement": "When a conforming peer sends an application-tagged primitive value, the decoder returns that value, consumes exactly its octets and reports no error.", "quantifier": "all conforming encodings of null, boolean, unsigned (<2^32), signed (int32), real, double, octet string, character string (UTF-8), bit string (<=120 bits), enumerated, date, time, object identifier; all trailing bytes", "why_tests_cant": "the set of conforming encodings is unbounded.", "anchors": ["encoding/appdata.go: (*Decoder).AppDataOfTag", "encoding/decoder.go", "encoding/string.go", "encoding/date.go"]}
{"id": "C09", "title": "Conforming values outside the supported ranges are refused, not misread", "statement": "A conforming value the library cannot represent (unsigned longer than 4 octets, bit string longer than 120 bits, date with unspecified year) produces an error or an explicit 'unspecified', never a different value reported as success.", "quantifier": "all such conforming values", "why_tests_cant": "unbounded encodings; silent corruption is invisible without a specification.", "anchors": ["encoding/decoder.go: unsigned, signed24, bitString", "encoding/date.go: (*Decoder).date"]}
{"id": "C10", "title": "Bit string bits keep their positions", "statement": "Bit i of a bit string on the wire (counted from the most significant bit of the first content octet) is bit i of the value the application sees, and the number of bits is preserved.", "quantifier": "all bit strings of up to 120 bits", "why_tests_cant": "2^121 bit strings.", "anchors": ["encoding/decoder.go: (*Decoder).bitString", "encoding/general.go: byteReverseBits", "btypes/bitstring.go: GetValue, Bit"]}
{"id": "C11", "title": "Truncated values are reported", "statement": "If the input ends before a value is complete, decoding that value reports an error instead of inventing the missing part.", "quantifier": "all conforming encodings and all their proper prefixes", "why_tests_cant": "all cut points of all values.", "anchors": ["encoding/appdata.go: (*Decoder).AppData", "encoding/date.go: date, time", "encoding/decoder.go: decode"]}
{"id": "C12", "title": "Decoding a value never crashes the process", "statement": "Decoding an application value from arbitrary bytes returns a value or an error; it never panics.", "quantifier": "all byte strings", "why_tests_cant": "crashing inputs are two-byte patterns hidden in an unbounded input space.", "anchors": ["encoding/appdata.go: AppDataOfTag", "encoding/string.go: (*Decoder).string", "encoding/date.go: (*Decoder).time"]}
{"id": "C13", "title": "BVLC header round trip and length field", "statement": "A BVLC header is read back as written with the payload still unread, and the length field of every frame the client builds equals the size of the datagram.", "quantifier": "all functions, all payloads of at most 65531 octets", "why_tests_cant": "payload sizes and contents are unbounded for tests.", "anchors": ["encoding/bvlc.go", "device.go: (*client).Send"]}
{"id": "C14", "title": "NPDU header round trip", "statement": "A network header written by the library (destination/source specifier present when its network number is non-zero, address length equal to the address bytes, priority 0..3, proprietary messages above 0x80 with their vendor id) is read back with the same fields and the same following bytes.", "quantifier": "all versions, priorities, flags, network numbers, address byte strings (<=255), hop counts, message types, trailing bytes", "why_tests_cant": "the header is variable-length with 2^5 shapes and unbounded addresses.", "anchors": ["encoding/npdu.go: (*Encoder).NPDU, (*Decoder).NPDU", "btypes/npdu.go"]}
{"id": "C15", "title": "NPDU header round trip for every message type and priority", "statement": "The NPDU round trip holds for every value of the message type and priority fields that the API accepts.", "quantifier": "all 256 message types and all 256 values of the priority byte", "why_tests_cant": "exactly one message type value (0x80) and the priorities above 3 break it.", "anchors": ["encoding/npdu.go: (*Encoder).NPDU, (*Decoder).NPDU", "encoding/npdu.go: SetPriority"]}
{"id": "C16", "title": "APDU header round trip", "statement": "Confirmed, unconfirmed and complex-ack headers are read back with the same type, flags, invoke id, service and negotiated sizes, and the parameters that follow are delivered unchanged.", "quantifier": "all flags, invoke ids, services, all parameter byte strings", "why_tests_cant": "unbounded parameters times 2^30 headers.", "anchors": ["encoding/apdu.go: (*Encoder).APDU, (*Decoder).APDU"]}
{"id": "C17", "title": "Advertised segment count and APDU size", "statement": "The max-segments/max-APDU octet of a confirmed request decodes to the exact standard APDU size asked for, and never advertises more segments than asked for.", "quantifier": "all segment counts; the six standard APDU sizes", "why_tests_cant": "segment counts are unbounded machine integers.", "anchors": ["encoding/general.go: encodeMaxSegsMaxApdu, decodeMaxApdu, decodeMaxSegs"]}
{"id": "C18", "title": "Advertised APDU size never exceeds the caller's", "statement": "A confirmed request never tells the peer it may send a larger APDU than the size the caller supplied, and a size above the largest standard one is advertised as the largest standard one.", "quantifier": "all APDU sizes", "why_tests_cant": "the wrong bucket is chosen for whole intervals of sizes between the tested ones.", "anchors": ["encoding/general.go: encodeMaxSegsMaxApdu"]}
{"id": "C19", "title": "I-Am round trip", "statement": "An I-Am written by the library, received as a frame, is decoded to the same device identifier, max APDU, segmentation and vendor.", "quantifier": "all device identifiers in range, all 32-bit field values", "why_tests_cant": "2^128 announcements.", "anchors": ["encoding/iam.go", "iam.go"]}
{"id": "C20", "title": "Who-Is round trip", "statement": "A Who-Is with limits 0 <= low, high < 4194303 is decoded with the same limits; every other request is sent and decoded as unlimited.", "quantifier": "all pairs of limits", "why_tests_cant": "2^44 pairs.", "anchors": ["encoding/whois.go"]}
{"id": "C21", "title": "I-Am-Router-To-Network lists every network", "statement": "Decoding an I-Am-Router-To-Network message yields exactly the networks it carries (without duplicates) and no error.", "quantifier": "all lists of network numbers", "why_tests_cant": "lists of every length; only length two works.", "anchors": ["encoding/npdu.go: (*Decoder).NPDU", "whoisrouter.go"]}
{"id": "C22", "title": "Error PDU class and code", "statement": "When a device answers with an Error PDU, the error the caller sees carries the class and code the device sent.", "quantifier": "all classes and codes, both encodings the decoder accepts", "why_tests_cant": "class/code pairs are numerous and one special class happens to work.", "anchors": ["encoding/apdu.go: (*Decoder).apduError", "btypes/bacerr"]}
{"id": "C23", "title": "ReadProperty request conformance", "statement": "For every valid object, property and array index the ReadProperty request written is exactly the one the standard prescribes (array index omitted iff the whole property is read) and is decoded back to the same request.", "quantifier": "all object ids in range, all property ids <= 4194303, all array indices, all invoke ids", "why_tests_cant": "2^86 requests.", "anchors": ["encoding/readprop.go: (*Encoder).ReadProperty, readPropertyHeader, (*Decoder).ReadProperty"]}
{"id": "C24", "title": "ReadProperty ack decoding", "statement": "When a device answers with a conforming ReadProperty ack, the decoded property carries exactly the values sent, in order (a single value as itself, several as a list), with the object, property and index of the ack.", "quantifier": "all objects, properties, indices and all lists of supported primitive values", "why_tests_cant": "unbounded lists of values.", "anchors": ["encoding/readprop.go: (*Decoder).ReadProperty"]}
{"id": "C25", "title": "ReadProperty ack written by the library", "statement": "A ReadProperty ack written by the library is decoded back by the library to the same property and value.", "quantifier": "all objects, properties, indices and supported values", "why_tests_cant": "unbounded values.", "anchors": ["encoding/readprop.go: (*Encoder).ReadPropertyAck"]}
{"id": "C26", "title": "ReadProperty ack written by the library conforms to the standard", "statement": "A ReadProperty ack written by the library is the one the standard prescribes, so that other BACnet clients can read it.", "quantifier": "all objects, properties, indices and supported values", "why_tests_cant": "self round trips cannot see it.", "anchors": ["encoding/readprop.go: (*Encoder).ReadPropertyAck"]}
{"id": "C27", "title": "ReadProperty decoding terminates", "statement": "Decoding a ReadProperty request or ack from arbitrary bytes terminates.", "quantifier": "all byte strings", "why_tests_cant": "termination on all inputs cannot be tested.", "anchors": ["encoding/readprop.go: (*Decoder).ReadProperty"]}
{"id": "C28", "title": "ReadPropertyMultiple request conformance", "statement": "For every list of objects and properties the ReadPropertyMultiple request written is exactly the one the standard prescribes.", "quantifier": "all lists of objects (in range) with all lists of properties and indices", "why_tests_cant": "unbounded nested lists.", "anchors": ["encoding/readmultiple.go", "encoding/encoder.go: objects, properties"]}
{"id": "C29", "title": "ReadPropertyMultiple ack decoding", "statement": "When a device answers with a conforming ReadPropertyMultiple ack whose results are lists of primitive values, the decoded result has the same objects in the same order, each with the same properties, indices and values.", "quantifier": "all nested lists of objects, properties, indices and supported primitive values", "why_tests_cant": "unbounded nested lists.", "anchors": ["encoding/readmultipleack.go: objectsWithData"]}
{"id": "C30", "title": "ReadPropertyMultiple ack decoding terminates", "statement": "Decoding a ReadPropertyMultiple ack from arbitrary bytes terminates with a result or an error.", "quantifier": "all byte strings", "why_tests_cant": "a hang on one truncated or nested message is enough to break it; tests time out at best.", "anchors": ["encoding/readmultipleack.go: objectsWithData"]}
{"id": "C31", "title": "WriteProperty request conformance", "statement": "For every valid object, property, index, priority and writable value the WriteProperty request written is exactly the one the standard prescribes; present values of binary outputs and binary values are written as enumerated.", "quantifier": "all objects, properties, indices, priorities and writable values", "why_tests_cant": "unbounded values and 2^90 headers.", "anchors": ["encoding/writeprop.go", "encoding/appdata.go: AppData"]}
{"id": "C32", "title": "WritePropertyMultiple request conformance", "statement": "For every list of objects and properties the WritePropertyMultiple request written is exactly the one the standard prescribes, priority included.", "quantifier": "all nested lists", "why_tests_cant": "unbounded nested lists; the wrong priority tag only shows against the standard.", "anchors": ["encoding/writemultiple.go", "encoding/encoder.go: properties"]}
{"id": "C33", "title": "Invalid requests are refused before transmission", "statement": "A read or write whose object type or property id is out of the standard's range returns an error and nothing is transmitted.", "quantifier": "all out-of-range object types and property ids", "why_tests_cant": "the out-of-range space is unbounded for tests.", "anchors": ["encoding/readprop.go: readPropertyHeader, ReadProperty", "encoding/writeprop.go: WriteProperty", "readprop.go", "writeprop.go"]}
{"id": "C34", "title": "Unwritable values are refused before transmission", "statement": "Writing a value of an unsupported type returns an error and transmits nothing; it never crashes.", "quantifier": "all dynamic types, all objects and properties", "why_tests_cant": "dynamic types are open ended and interact with the target object type.", "anchors": ["encoding/appdata.go: (*Encoder).AppData", "writeprop.go: (*client).WriteProperty"]}
{"id": "C35", "title": "No datagram crashes the receiver", "statement": "Handling a received datagram of arbitrary content never panics.", "quantifier": "all byte strings of any length", "why_tests_cant": "the crashing datagrams are specific 8..11 octet patterns.", "anchors": ["device.go: (*client).handleMsg"]}
{"id": "C36", "title": "Receive dispatch", "statement": "A received frame is delivered to the pending transaction named by its invoke id exactly when it is a simple ack, complex ack or error for it, with the APDU octets unchanged, and to Who-Is callers exactly when it is an I-Am, under the announced instance.", "quantifier": "all frames", "why_tests_cant": "unbounded frames and four nested headers.", "anchors": ["device.go: (*client).handleMsg"]}
{"id": "C37", "title": "Every final answer ends the transaction", "statement": "A Reject or Abort for a pending request reaches the caller as an error instead of letting the request time out.", "quantifier": "all invoke ids and reasons", "why_tests_cant": "requires reasoning on all inputs of the receive path.", "anchors": ["encoding/apdu.go: (*Decoder).APDU", "device.go: handleMsg"]}
{"id": "C38", "title": "Forwarded broadcasts are understood", "statement": "A Forwarded-NPDU frame (BVLC function 4) is handled like the original broadcast it carries, ignoring the 6-octet originating address.", "quantifier": "all originating addresses and payloads", "why_tests_cant": "2^48 originating addresses times all payloads.", "anchors": ["device.go: (*client).handleMsg", "btypes/bvlc.go"]}
{"id": "C39", "title": "End-to-end ReadProperty", "statement": "If a device answers a ReadProperty request with a conforming ack frame carrying its invoke id, ReadProperty returns the values in the frame and no error, after one transmission.", "quantifier": "all requests, all frames carrying lists of supported values", "why_tests_cant": "composition of all layers over unbounded values.", "anchors": ["readprop.go: (*client).ReadProperty", "device.go: handleMsg, Send"]}
{"id": "C40", "title": "Bounded retries", "statement": "ReadProperty transmits at most once, WriteProperty at most twice, ReadMultiProperty and WriteMultiProperty at most twice, and a call that transmitted returns an error if no attempt was answered.", "quantifier": "all sequences of send failures, timeouts and replies", "why_tests_cant": "the environment's behaviours are unbounded sequences.", "anchors": ["readprop.go", "writeprop.go", "readmulti.go", "writemulti.go"]}
{"id": "C41", "title": "Successful write means acknowledged write", "statement": "WriteProperty returns nil only if an acknowledgement carrying its invoke id was received.", "quantifier": "all reply frames", "why_tests_cant": "any frame may arrive.", "anchors": ["writeprop.go: (*client).WriteProperty", "device.go: handleMsg"]}
{"id": "C42", "title": "Requests respect the device's maximum APDU", "statement": "ReadMultiProperty and WriteMultiProperty never transmit a network packet larger than the device's advertised maximum APDU and refuse devices that advertise zero.", "quantifier": "all requests, all device limits", "why_tests_cant": "request sizes are unbounded.", "anchors": ["readmulti.go", "writemulti.go", "btypes/device.go: CheckADPU"]}
{"id": "C43", "title": "Frames to routed devices are well formed", "statement": "Every request frame sent to a device behind a router is parsed by the receiver with the device's network number and MAC address as destination and the request as payload.", "quantifier": "all network numbers and MAC addresses of any length", "why_tests_cant": "MAC lengths other than one octet are never exercised.", "anchors": ["btypes/address.go: SetLength", "readprop.go", "writemulti.go", "encoding/npdu.go"]}
{"id": "C44", "title": "Broadcast or unicast is chosen by the destination", "statement": "A frame is sent with the broadcast function exactly when the destination denotes a broadcast, and with the unicast function otherwise.", "quantifier": "all destination addresses", "why_tests_cant": "addresses are unbounded records.", "anchors": ["device.go: (*client).Send", "btypes/address.go: IsBroadcast, IsSubBroadcast"]}
{"id": "C45", "title": "Who-Is result", "statement": "WhoIs returns at most one entry per device instance, each taken from the first I-Am received from that instance within the requested range, in order of arrival, and every I-Am received in range is represented.", "quantifier": "all ranges and all sequences of received messages", "why_tests_cant": "unbounded sequences with duplicates.", "anchors": ["whois.go: (*client).WhoIs", "utsm"]}
{"id": "C46", "title": "Who-Is range on the wire covers the request", "statement": "Every device whose instance is in the requested range is asked to answer.", "quantifier": "all ranges", "why_tests_cant": "boundary values of a 22-bit range.", "anchors": ["whois.go: (*client).WhoIs", "encoding/whois.go"]}
{"id": "C47", "title": "Object list chunking", "statement": "Reading an object list of n entries requests every index 1..n exactly once, in order, in groups that fit the device's APDU.", "quantifier": "all n, all max APDU sizes >= 20", "why_tests_cant": "n and the APDU size are unbounded.", "anchors": ["objectlist.go: objectList, objectsRange"]}
{"id": "C48", "title": "Object list reading never crashes", "statement": "Reading the objects of a device returns or reports an error for every advertised APDU size and every well-formed answer.", "quantifier": "all advertised APDU sizes, all answers", "why_tests_cant": "division by zero for small sizes and index errors for short answers are not in the tests.", "anchors": ["objectlist.go: objectList, objectInformation"]}
{"id": "C49", "title": "Objects() returns the device's objects", "statement": "Against a device that answers correctly, Objects returns exactly the objects of its object list, each with its own name and description.", "quantifier": "all object lists, names, descriptions", "why_tests_cant": "unbounded lists; map iteration order is arbitrary.", "anchors": ["objectlist.go: Objects, allObjectInformation, objectInformation, objectCopy"]}
{"id": "C50", "title": "Invoke ids are unique while in use", "statement": "No two transactions in progress hold the same invoke id, and every id is between 1 and 254, whatever the interleaving of callers.", "quantifier": "all interleavings of ID/Put/Send/Receive calls by any number of goroutines", "why_tests_cant": "schedules are unbounded.", "anchors": ["tsm/transactions.go: New, ID, Put"]}
{"id": "C51", "title": "Concurrency limit and conservation", "statement": "At most `size` transactions are in progress at any moment and no id or slot is ever lost: ids free, being handed out and in use are always the 254 ids 1..254, and slots likewise.", "quantifier": "all interleavings, all sizes", "why_tests_cant": "schedules are unbounded, leaks appear only after long histories.", "anchors": ["tsm/transactions.go: ID, Put"]}
{"id": "C52", "title": "Releasing an id never blocks", "statement": "Put never blocks on its channels and the second Put of the same id is refused without effect.", "quantifier": "all interleavings", "why_tests_cant": "schedules are unbounded.", "anchors": ["tsm/transactions.go: Put"]}
{"id": "C53", "title": "A reply reaches only its own transaction", "statement": "A value passed to Send(id) is only ever returned by a Receive of the transaction that held id when Send was called.", "quantifier": "all interleavings", "why_tests_cant": "needs a precise interleaving of four goroutines.", "anchors": ["tsm/transactions.go: Send, Receive, Put, ID"]}
{"id": "C54", "title": "Late and duplicate replies are harmless", "statement": "Delivering a reply for a transaction that has already been answered or has timed out never crashes the process.", "quantifier": "all interleavings", "why_tests_cant": "the crash needs a reply to arrive in a small time window.", "anchors": ["tsm/transactions.go: Send, Put"]}
{"id": "C55", "title": "Subscribers receive only their range, in order, without loss or duplication", "statement": "What a subscriber has received so far, followed by what is in its queue, is exactly the sequence of values published within its range since it registered, in publication order.", "quantifier": "all interleavings of any number of publishers and subscribers", "why_tests_cant": "schedules are unbounded.", "anchors": ["utsm/utsm.go: Publish, newSubscriber", "utsm/subscriber.go: Subscribe"]}
{"id": "C56", "title": "Publish and Subscribe never deadlock", "statement": "Publish and Subscribe always return: no interleaving leaves all goroutines blocked.", "quantifier": "all interleavings and timings", "why_tests_cant": "deadlock needs a precise interleaving of three deliveries.", "anchors": ["utsm/utsm.go: Publish, removeSubscriber", "utsm/subscriber.go: Subscribe, getTimeout"]}
{"id": "C57", "title": "Unsubscribing affects nobody else", "statement": "When a subscriber is removed all others stay registered in the same order and exactly that one is gone.", "quantifier": "all subscriber lists", "why_tests_cant": "unbounded lists, duplicates and positions.", "anchors": ["utsm/utsm.go: removeSubscriber"]}
{"id": "C58", "title": "Object map JSON round trip", "statement": "Marshalling an object map to JSON and back gives the same map.", "quantifier": "all object maps", "why_tests_cant": "types without a name collapse; maps are unbounded.", "anchors": ["btypes/object_map.go: MarshalJSON, UnmarshalJSON", "btypes/object.go: String, GetType"]}
{"id": "C59", "title": "Bit string get/set laws", "statement": "Setting a bit makes exactly that bit read back as set to the given value and leaves all other bits unchanged; the used length only grows to include it.", "quantifier": "all bit strings of capacity 15 octets, all bit numbers", "why_tests_cant": "2^120 states.", "anchors": ["btypes/bitstring.go: SetBit, Bit"]}
{"id": "C60", "title": "Device address round trip", "statement": "A device created from a dotted IPv4 address, port, network and MAC is contacted at that address and port and with that network and MAC.", "quantifier": "all IPv4 addresses, ports, networks and MACs", "why_tests_cant": "2^72 combinations.", "anchors": ["btypes/device.go: NewDevice", "btypes/address.go: UDPAddr", "helpers/ipbytes/ip.go", "datalink/udp.go: UDPToAddress"]}
{"id": "C61", "title": "Port validation", "statement": "A port is accepted exactly when it is between 0 and 65535.", "quantifier": "all integers", "why_tests_cant": "the check is a regular expression over decimal text of any length.", "anchors": ["helpers/validation/vaildation.go: ValidPort"]}
{"id": "C62", "title": "Effective priority value", "statement": "The highest-priority value of a priority array is the first non-null entry, and none if all are null.", "quantifier": "all priority arrays", "why_tests_cant": "2^16 null patterns with arbitrary values.", "anchors": ["btypes/priority/priority.go: HighestFloat32"]}
{"id": "C63", "title": "Priority array of an analog object can be read", "statement": "Building the priority record from the 16 values a device returns for an analog object gives those values and never crashes.", "quantifier": "all arrays of real or null values", "why_tests_cant": "the crash depends on dynamic types.", "anchors": ["btypes/priority/priority.go: BuildFloat32"]}
{"id": "C64", "title": "Supported-services table", "statement": "Each service is looked up by its name to a unique entry whose number is its bit position in BACnetServicesSupported.", "quantifier": "all service names", "why_tests_cant": "table-wide consistency.", "anchors": ["btypes/services/services.go"]}
{"id": "C65", "title": "Local network device keeps its identity", "statement": "A device opened through the network package is addressed with the device id, port and network the caller gave.", "quantifier": "all device descriptions", "why_tests_cant": "tests always use the default port and do not look at the identifier.", "anchors": ["network/device.go: NewDevice", "btypes/device.go: NewDevice"]}
{"id": "C66", "title": "Device discovery lists distinct devices", "statement": "DeviceDiscover returns one entry per discovered device, each with that device's own data.", "quantifier": "all lists of discovered devices", "why_tests_cant": "aliasing only shows with two or more devices.", "anchors": ["network/discover.go: DeviceDiscover"]}
{"id": "C67", "title": "Device object list of any length", "statement": "DeviceObjects returns all object ids of the device whatever their number.", "quantifier": "all object lists including one-element lists", "why_tests_cant": "the single-element case has a different dynamic type.", "anchors": ["network/objects.go: DeviceObjects", "helpers/data/data.go: ToArr", "encoding/readprop.go"]}
{"id": "C68", "title": "Client bound to an address uses the caller's subnet and port", "statement": "A client created from an IP address, subnet length and port listens on that port and broadcasts to that subnet.", "quantifier": "all addresses, subnet lengths 0..32, ports", "why_tests_cant": "arguments of the same type can be exchanged without type errors.", "anchors": ["device.go: NewClient", "datalink/udp.go: NewUDPDataLinkFromIP"]}
{"id": "C69", "title": "Broadcast address of the subnet", "statement": "The broadcast address computed for an interface has the interface's network bits and all host bits set.", "quantifier": "all IPv4 addresses and masks", "why_tests_cant": "2^64 pairs.", "anchors": ["datalink/udp.go: dataLink"]}
{"id": "C70", "title": "Per-property errors do not hide the other values", "statement": "If a ReadPropertyMultiple answer reports an access error for one property and values for others, ReadMultiProperty returns the values it contains.", "quantifier": "all answers with any number of values before and after the error, all error classes and codes", "why_tests_cant": "Position of the error among any number of values and objects is unbounded; tests fix one answer.", "anchors": ["encoding/readmultipleack.go: bacError, objectsWithData", "readmulti.go: ReadMultiProperty"]}
{"id": "C71", "title": "A reply to a waiting caller is delivered", "statement": "If a caller waits in Receive(id) and nobody has released the id, a Send(id) for it can always complete at once, hands its value to that very caller and both return.", "quantifier": "all reachable states of any number of goroutines, all ids and values", "why_tests_cant": "schedules are unbounded; a test sees one pairing of sender and receiver.", "anchors": ["tsm/transactions.go: Send, Receive"]}
{"id": "C72", "title": "A device needs a valid IPv4 address", "statement": "Creating a device from a text that is not an IPv4 address fails, or at least nothing is ever sent for it.", "quantifier": "all texts that are not dotted IPv4 addresses", "why_tests_cant": "the set of malformed texts is infinite; a test picks a few.", "anchors": ["btypes/device.go: NewDevice", "helpers/ipbytes/ip.go: New, pack32BinaryIP4, ip4toInt"]}
{"id": "C73", "title": "Index of a supported service", "statement": "The Index of a service found by name is the bit it occupies in the protocol-services-supported bit string.", "quantifier": "all services of the table, any map iteration order", "why_tests_cant": "a table lookup over random map order; tests look at single entries.", "anchors": ["btypes/services/services.go: supportedList, GetType"]}
{"id": "C74", "title": "Devices can be opened on any network obtained from the package", "statement": "NewDevice on a network created with network.New or kept with Store.NewNetwork returns a device and does not crash.", "quantifier": "all networks, stores and devices", "why_tests_cant": "depends on which pointers are set by which constructor; a test uses one construction path.", "anchors": ["network/store.go: NewNetwork, GetNetwork", "network/device.go: NewDevice", "network/base.go: New"]}
{"id": "C75", "title": "Store lookups return what was stored or an error", "statement": "GetDevice and GetNetwork return the item last stored under the id, an error if there is none of that kind, and storing changes no other id.", "quantifier": "all ids and all sequences of stored items", "why_tests_cant": "unbounded contents of the store.", "anchors": ["network/store.go: GetNetwork, GetDevice, UpdateDevice, NewNetwork", "helpers/store/init.go"]}
{"id": "C76", "title": "Point reads return the device's value or an error", "statement": "PointReadFloat32, PointReadBool, PointReadMultiState and the name reads return the value the device answered, or an error if there is none of that type.", "quantifier": "all devices, points, answers and failures", "why_tests_cant": "all answer types and values; tests use matching types.", "anchors": ["network/points.go: PointReadFloat32, PointReadBool, PointReadMultiState", "network/strings.go", "network/read.go: Read", "helpers/data/data.go"]}
{"id": "C77", "title": "Point writes are requests for exactly that point and value", "statement": "PointWriteAnalogue, PointWriteBool, PointWriteMultiState and the name writes send the standard's WriteProperty request for that object, property, value and priority to the opened device, at most twice, and succeed on the first acknowledgement.", "quantifier": "all devices, objects, values, priorities and invoke ids", "why_tests_cant": "2^32 values times objects; correctness is about the exact octets.", "anchors": ["network/points.go: PointWriteAnalogue, PointWriteBool, PointWriteMultiState", "network/strings.go: WritePointName, WriteDeviceName", "network/write.go: Write"]}
{"id": "C78", "title": "Point writes never crash", "statement": "Writing any value to any point ends with success or an error.", "quantifier": "all object types and values", "why_tests_cant": "the crash depends on a combination of object type and Go type.", "anchors": ["network/points.go: PointWriteAnalogue", "encoding/writeprop.go: WriteProperty"]}
{"id": "C79", "title": "Invalid priorities are refused", "statement": "A write with a priority outside 1..16 (other than none) is refused before anything is sent.", "quantifier": "all priorities 0..255, all points", "why_tests_cant": "tests check one bad priority in one function.", "anchors": ["network/points.go: PointWriteBool, PointReleasePriority", "network/write.go: Write"]}
{"id": "C80", "title": "Releasing a priority", "statement": "PointReleasePriority writes Null to the present value at exactly the given priority if it is in 1..16 and otherwise sends nothing and returns an error.", "quantifier": "all points and all integer priorities", "why_tests_cant": "all integers.", "anchors": ["network/points.go: PointReleasePriority"]}
{"id": "C81", "title": "NetworkDiscover keeps what devices announced", "statement": "NetworkDiscover returns one entry per announced device with its announced identity, address, APDU size and segmentation, and the name and vendor that device itself answers.", "quantifier": "all lists of announced devices, all combinations of answered and failed detail reads", "why_tests_cant": "unbounded lists and 2^4 failure combinations per device.", "anchors": ["network/whois.go: NetworkDiscover, GetDeviceDetails"]}
{"id": "C82", "title": "Device details", "statement": "GetDeviceDetails returns the name, APDU size, vendor, segmentation and supported services of the device, or an error if they cannot be read.", "quantifier": "all answers and failures of the reads", "why_tests_cant": "all combinations of failures.", "anchors": ["network/discover.go: GetDeviceDetails"]}
{"id": "C83", "title": "Points of a device", "statement": "GetDevicePoints returns, in the order of the device's object list, one entry per object that is not a device, with that object's own name, units (non-binary objects), type and instance.", "quantifier": "all object lists, all answers and failures", "why_tests_cant": "unbounded lists with a varying number of reads per object.", "anchors": ["network/discover.go: GetDevicePoints", "network/points.go: PointDetails"]}
{"id": "C84", "title": "The discovery scan asks in batches of the scan size", "statement": "For every positive scan size the discovery command asks for every device instance, in ranges of at most that many instances.", "quantifier": "all scan sizes", "why_tests_cant": "boundary behaviour for all sizes.", "anchors": ["cmd/cmd/discover.go: discover", "whois.go: WhoIs"]}
{"id": "C85", "title": "Closing a client frees its socket", "statement": "After ClientClose the UDP socket of the client is closed, whatever the argument.", "quantifier": "all clients and both arguments", "why_tests_cant": "a test with a fake data link does not see which file is closed.", "anchors": ["device.go: ClientClose, Close"]}
{"id": "C86", "title": "A reply as large as the client announced is received whole", "statement": "Requests announce a maximum APDU size; an acknowledgement of at most that many octets, sent in one frame, is delivered to its transaction octet for octet.", "quantifier": "all acknowledgements up to the announced size, all headers, all source addresses", "why_tests_cant": "tests use short replies; the limit depends on the header octets in front of the reply.", "anchors": ["device.go: NewClient, ClientRun, handleMsg", "datalink/udp.go: Receive", "encoding/general.go: encodeMaxSegsMaxApdu"]}
{"id": "C87", "title": "A datagram from any source address is handled", "statement": "Whatever address a datagram arrives from, the client takes it without crashing and reports that address as its source.", "quantifier": "all source addresses (IPv4, IPv4-mapped, IPv6), all ports and contents", "why_tests_cant": "tests receive from the loopback IPv4 address only.", "anchors": ["datalink/udp.go: Receive, UDPToAddress"]}
{"id": "C88", "title": "The client keeps receiving", "statement": "As long as the client is open every datagram that arrives is handed to the message handler once, in order of arrival, whatever errors the socket reported before.", "quantifier": "all sequences of datagrams and receive errors", "why_tests_cant": "errors of the socket depend on the operating system and the other hosts.", "anchors": ["device.go: ClientRun"]}
{"id": "C89", "title": "Network-layer messages never reach a transaction", "statement": "A frame marked as network-layer message is never delivered to a transaction, published as I-Am or able to acknowledge a write.", "quantifier": "all network-layer message types and contents, all known transactions", "why_tests_cant": "unbounded contents that happen to look like an APDU.", "anchors": ["device.go: handleMsg", "encoding/npdu.go: (*Decoder).NPDU"]}
{"id": "C90", "title": "Router discovery returns every announced network", "statement": "WhoIsRouterToNetwork broadcasts one Who-Is-Router-To-Network and returns every network number of every I-Am-Router-To-Network message received while it waits.", "quantifier": "all sequences of announcements with any number of networks", "why_tests_cant": "unbounded lists of networks and messages.", "anchors": ["whoisrouter.go: WhoIsRouterToNetwork", "encoding/npdu.go: (*Decoder).NPDU", "device.go: handleMsg"]}
{"id": "C91", "title": "WhatIsNetworkNumber returns the announced numbers", "statement": "WhatIsNetworkNumber broadcasts one What-Is-Network-Number message and returns, in order, the number of every Network-Number-Is message received while it waits.", "quantifier": "all sequences of messages, numbers 1..65534, both flags", "why_tests_cant": "unbounded sequences of messages.", "anchors": ["whatnetwork.go: WhatIsNetworkNumber", "encoding/npdu.go: (*Decoder).NPDU", "device.go: handleMsg"]}
{"id": "C92", "title": "The discovery command loses no device", "statement": "The results the discovery command saves contain every device whose objects were read, each instance once, for every concurrency setting, and the command always finishes.", "quantifier": "all batches of found devices, all concurrency settings, all interleavings of the workers and the merging goroutine", "why_tests_cant": "the outcome depends on the scheduler.", "anchors": ["cmd/cmd/discover.go: discover"]}
{"id": "C93", "title": "Concurrent calls do not disturb each other", "statement": "Any number of goroutines may call ReadProperty, WriteProperty, ReadMultiProperty and WriteMultiProperty on one client: each call sends and returns what it would have sent and returned alone, given the answers that arrived for its own transaction.", "quantifier": "all numbers of goroutines, all requests, all sequences of received datagrams, all interleavings and time-outs", "why_tests_cant": "the outcome depends on the scheduler, the recycling of objects and the arrival times.", "anchors": ["device.go: ClientRun, handleMsg", "readprop.go", "writeprop.go", "readmulti.go", "writemulti.go", "tsm/transactions.go"]}
{"id": "C94", "title": "Calls in progress never share an invoke id", "statement": "At every moment the calls that have an invoke id have different ones, in 1..254, and there are at most 20 of them.", "quantifier": "all executions of a shared client", "why_tests_cant": "interleavings of calls that start and end at the same time.", "anchors": ["tsm/transactions.go: ID, Put", "readprop.go", "writeprop.go", "readmulti.go", "writemulti.go", "device.go: defaultStateSize"]}
{"id": "C95", "title": "Calls give back what they took", "statement": "Whenever no call is in progress, however the earlier ones ended, all 254 invoke ids and all 20 slots are free again and a new call gets an id.", "quantifier": "all executions of a shared client, including failed, timed out and refused calls", "why_tests_cant": "leaks show after many calls only.", "anchors": ["tsm/transactions.go: ID, Put", "readprop.go", "writeprop.go", "readmulti.go", "writemulti.go"]}
{"id": "C96", "title": "A call never finds its transaction missing or closed", "statement": "Receive and Put of a call always find the call's transaction: Receive never returns a nil value or the error for an unknown id, Put never the error for an unknown id.", "quantifier": "all executions of a shared client", "why_tests_cant": "depends on the order of Put and Receive of different goroutines.", "anchors": ["tsm/transactions.go: Receive, Put", "readprop.go", "writeprop.go", "readmulti.go", "writemulti.go"]}
{"id": "C97", "title": "Well-formed answers never bring the process down", "statement": "As long as the handler panics on no datagram and no call panics by itself, no execution panics.", "quantifier": "all executions of a shared client, including repeated and late answers", "why_tests_cant": "depends on the moment at which an answer arrives.", "anchors": ["device.go: handleMsg", "tsm/transactions.go: Send, Put"]}
{"id": "C98", "title": "No call waits for ever", "statement": "From every state of a shared client each call in progress can come to its end by steps of the goroutines that exist and time-outs alone, without any further datagram.", "quantifier": "all reachable states, all calls whose request can be encoded", "why_tests_cant": "absence of deadlock between goroutines holding the mutex, channels and slots.", "anchors": ["tsm/transactions.go: ID, Send, Receive, Put", "readprop.go", "writeprop.go", "readmulti.go", "writemulti.go"]}
{"id": "C99", "title": "An answer ends the call that waits for it", "statement": "If a call waits and a datagram that answers its invoke id arrives, the call returns with what that datagram says.", "quantifier": "all reachable states in which the call waits and nobody holds the mutex, all answers", "why_tests_cant": "the state of the other goroutines is arbitrary.", "anchors": ["device.go: handleMsg", "tsm/transactions.go: Send, Receive", "readprop.go"]}
{"id": "C100", "title": "Only the device asked can answer a call", "statement": "The value a read returns was sent from the address of the device that was asked.", "quantifier": "all executions, all senders", "why_tests_cant": "tests have no second host on the network.", "anchors": ["device.go: handleMsg", "readprop.go: ReadProperty", "tsm/transactions.go: Send"]}
{"id": "C101", "title": "Names of properties", "statement": "Get returns the standard's property identifier for each of the names Keys lists and an error for every other text; different names stand for different identifiers; String calls exactly the identifiers without a name unknown.", "quantifier": "all texts and property identifiers", "why_tests_cant": "a test can try some names, not all texts.", "anchors": ["btypes/property.go: Get, Keys, String, propertyTypeMapping, propertybtypestrMapping"]}
{"id": "C102", "title": "The write command writes only values it understood", "statement": "The write command sends a WriteProperty request only if the value given could be converted to the datatype of the property's present content, and then writes the converted value; it writes nothing if the property could not be read or no value was given.", "quantifier": "all flags selecting a valid object and property, all answers of the device, all texts", "why_tests_cant": "depends on the answer of a device and on the text.", "anchors": ["cmd/cmd/writeprop.go: writeProp"]}
{"id": "C103", "title": "The write command keeps the datatype of a property", "statement": "The value the write command writes has the datatype the device reported for the property.", "quantifier": "all properties whose value is a number or a character string", "why_tests_cant": "needs devices with properties of every datatype.", "anchors": ["cmd/cmd/writeprop.go: writeProp"]}
{"id": "C104", "title": "The write command writes the property it was asked to", "statement": "The write command reads and writes the property named by its flag, by a known name or a number, of the object selected, at the device selected, and with --null sends one release of that property; an unknown name is refused.", "quantifier": "all flags", "why_tests_cant": "a test can try some names; the frames have to be compared octet by octet.", "anchors": ["cmd/cmd/writeprop.go: writeProp", "btypes/property.go: Get"]}
{"id": "C105", "title": "The read and whois commands do their work", "statement": "The read command sends a request for the property it was asked for and prints the value without crashing, whatever its datatype; the whois command sends its requests.", "quantifier": "all flags, all answers of the device", "why_tests_cant": "needs a network; the outcome depends on the datatype of the answer.", "anchors": ["cmd/cmd/readprop.go: readProp", "cmd/cmd/whoIs.go: main", "network/base.go: New"]}
{"id": "C106", "title": "Instances of the library find each other", "statement": "An I-Am sent with IAm goes in one datagram to the destination given; a WhoIs of another instance that receives it, and whose range contains the instance, returns exactly one device with that instance, with the identifier, APDU length, segmentation and vendor announced and the address of the sender.", "quantifier": "all devices and destinations that can be encoded, all other traffic before and after", "why_tests_cant": "needs two instances on a network, and all other traffic.", "anchors": ["iam.go: IAm", "device.go: handleMsg", "whois.go: WhoIs", "encoding/iam.go: IAm"]}
{"id": "C107", "title": "Requests to a device found by WhoIs reach it", "statement": "ReadProperty on a device returned by WhoIs sends its request to the UDP address its I-Am came from; a device that announced itself from a station behind a router gets a request addressed to that station; the answer is returned.", "quantifier": "all I-Ams with and without source station, all other traffic, all properties", "why_tests_cant": "needs a router and station addresses of every length.", "anchors": ["device.go: handleMsg", "whois.go: WhoIs", "readprop.go: ReadProperty", "btypes/address.go: SetLength"]}
{"id": "C108", "title": "Calls that share a client do not disturb each other unless answers come late", "statement": "If every answer arrives while the call that sent the request is in progress and is handled before that call ends, then each call, however the goroutines interleave and whatever state objects are recycled, ends exactly as it would alone with answers to its own datagrams; the transaction manager does not panic; a read returns a value of the device it asked or an error; a successful write was confirmed for a datagram of that write.", "quantifier": "all numbers of goroutines, all interleavings, all requests, all answers, all recycling choices", "why_tests_cant": "needs all interleavings of calls, receive handlers and the transaction manager.", "anchors": ["tsm/transactions.go: Send, Receive, Put, ID", "device.go: handleMsg", "readprop.go: ReadProperty", "writeprop.go: WriteProperty"]}
{"id": "C109", "title": "A discovery call returns what was announced while it was registered", "statement": "However many WhoIs, WhoIsRouterToNetwork and WhatIsNetworkNumber calls run together on a client, each that returns without error returns exactly what follows from the announcements published while it was registered, in their order, cut off before at most one last announcement in its range: for WhoIs one entry per device, from its first I-Am, and only devices whose I-Am was received and lies in the requested range; no call returns an error unless its request could not be sent, and a request that was sent is the one of the call.", "quantifier": "all numbers of goroutines, all interleavings of calls, receive handlers and timeouts, all datagrams received, all options", "why_tests_cant": "needs all interleavings of several calls with the receive handlers inside the publish/subscribe manager.", "anchors": ["whois.go: WhoIs", "whoisrouter.go: WhoIsRouterToNetwork", "whatnetwork.go: WhatIsNetworkNumber", "device.go: handleMsg", "utsm/utsm.go: Publish, Subscribe"]}
{"id": "C110", "title": "Devices that answer a Who-Is in time are found", "statement": "If the I-Am of a device in the requested range is handled after the Who-Is was sent and before WhoIs returns, the device is in the list returned.", "quantifier": "all interleavings of the sending goroutine, the subscription and the receive handlers, all datagrams", "why_tests_cant": "the losing interleavings are races between the goroutine that sends and the subscription, and at the timeout.", "anchors": ["whois.go: WhoIs", "utsm/subscriber.go: Subscribe", "utsm/utsm.go: Publish"]}
{"id": "C111", "title": "Discovery calls return", "statement": "Every WhoIs, WhoIsRouterToNetwork and WhatIsNetworkNumber call eventually returns, whatever is received while it waits.", "quantifier": "all states reachable by any number of calls and receive handlers, all datagrams, all continuations", "why_tests_cant": "a hang is a statement about all continuations; reaching it needs two announcements at the moment of a timeout.", "anchors": ["whois.go: WhoIs", "utsm/utsm.go: Publish, removeSubscriber", "utsm/subscriber.go: Subscribe", "device.go: handleMsg"]}
{"id": "C112", "title": "A discovery call whose request could not be sent returns an error", "statement": "If the transmission of its request fails, WhoIs, WhoIsRouterToNetwork or WhatIsNetworkNumber returns an error.", "quantifier": "all interleavings of the call and the goroutine that sends, all requests", "why_tests_cant": "the error is lost in a race on a variable shared by two goroutines.", "anchors": ["whois.go: WhoIs", "whoisrouter.go: WhoIsRouterToNetwork", "whatnetwork.go: WhatIsNetworkNumber"]}
{"id": "C113", "title": "Texts of enumerations tell numbers apart", "statement": "For every number of its type, the text the library gives for an error class, an error code, a unit, a segmentation support or a network layer message is the name declared for that number, or the type and the number when there is none; two numbers never have the same text, and building the text never crashes.", "quantifier": "all numbers of the types uint8, uint16 and uint32", "why_tests_cant": "uint32 has four thousand million values; that no two texts coincide is a statement about pairs.", "anchors": ["btypes/bacerr/errorclass_string.go: String", "btypes/bacerr/errorcode_string.go: String", "btypes/units/unit_string.go: String", "btypes/segmentation/segmentedtype_string.go: String", "btypes/ndpu/networkmessagetype_string.go: String"]}
{"id": "C114", "title": "The error of a read names the class and code the device sent", "statement": "If a device answers a read with an Error PDU of class c and code x, the text of the error returned names c and x; different classes or codes give different texts.", "quantifier": "all requests, devices, frames, classes and codes", "why_tests_cant": "relates the wire format of all errors to texts through receive path, transaction and call.", "anchors": ["device.go: handleMsg", "encoding/apdu.go: apduError", "readprop.go: ReadProperty", "btypes/bacerr/errorcode_string.go: String"]}
{"id": "C115", "title": "The unit name of a point is the device's", "statement": "PointDetails gives in UnitString the name of the unit the device reports for the point, and no unit name when the device reports none.", "quantifier": "all points, devices, answers and failures", "why_tests_cant": "needs all unit numbers and all ways a read can fail.", "anchors": ["network/points.go: PointDetails", "btypes/units/unit_string.go: String"]}
{"id": "C116", "title": "Answers to ReadPropertyMultiple written by the library are standard answers", "statement": "Encoder.ReadMultiplePropertyAck writes, for every list of objects with properties and values, the ReadPropertyMultiple-ACK of the standard holding exactly these, and reading it back with Decoder.ReadMultiplePropertyAck gives the same objects.", "quantifier": "all invoke ids, lists of objects, properties, array indexes and values", "why_tests_cant": "the octets depend on nested lists of any length and on values of every type.", "anchors": ["encoding/readmultipleack.go: ReadMultiplePropertyAck, objectsWithData, propertiesWithData", "encoding/encoder.go: write"]}
{"id": "C117", "title": "Date patterns are recognised as the standard defines them", "statement": "For every date a device sends, IsOddMonth, IsEvenMonth, IsLastDayOfMonth, IsOddDayOfMonth and IsEvenDayOfMonth hold of the decoded month and day exactly when the date stands for odd months, even months, the last day of a month, odd days and even days.", "quantifier": "all dates on the wire", "why_tests_cant": "an if-and-only-if over all months and days, connected to the decoder.", "anchors": ["encoding/date.go: IsOddMonth, IsEvenMonth, IsLastDayOfMonth, IsEvenDayOfMonth, IsOddDayOfMonth, date"]}
{"id": "C118", "title": "Reads and writes show what the device does, whatever the network loses", "statement": "Take any device that answers ReadProperty and WriteProperty by the standard from an internal state, and a network that may drop any request and any answer. In every sequence of ReadProperty and WriteProperty calls, with changes to the device in between, each call returns what the device's state prescribes: an answered read the property at that moment; a write success exactly when the device accepted it in an attempt whose answer arrived, and an error otherwise; and each attempt that reaches the device is carried out once.", "quantifier": "all devices (state machines), states, sequences of calls, losses, invoke ids and changes from elsewhere", "why_tests_cant": "a refinement over unbounded sequences of calls, all devices and all patterns of loss.", "anchors": ["readprop.go: ReadProperty", "writeprop.go: WriteProperty", "device.go: handleMsg", "encoding/readprop.go", "encoding/writeprop.go"]}
{"id": "C119", "title": "A client reads its own writes", "statement": "On a device whose properties keep what is written, a property whose write returned no error is read with the written value (as the API shows it) until it is written again; a write changes no other property and, if it fails, leaves the old value or the new one; and every value read was there initially or was passed to an earlier write of that property.", "quantifier": "all devices of that kind, sessions, values, properties, array indexes, losses", "why_tests_cant": "it relates calls arbitrarily far apart, under every pattern of loss.", "anchors": ["readprop.go: ReadProperty", "writeprop.go: WriteProperty", "encoding/appdata.go"]}
{"id": "C120", "title": "Commanding points follows the priority array", "statement": "With a device of commandable objects (16 slots and a default), calls of PointReadFloat32, PointWriteAnalogue, PointReadBool, PointWriteBool and PointReleasePriority in any order and under any loss of messages behave like the priority array of the standard: a confirmed command shows unless a higher priority holds the point; a release that reaches the device restores what the point showed before the command, even if the command was not confirmed; repeated transmissions count once; other points stay as they are.", "quantifier": "all sets of points, priorities, values, sequences of calls and losses", "why_tests_cant": "a refinement over unbounded sequences, all states of the priority arrays and all losses.", "anchors": ["network/points.go: PointReadFloat32, PointReadBool, PointWriteAnalogue, PointWriteBool, PointReleasePriority", "network/write.go: Write", "network/read.go: Read"]}
{"id": "C121", "title": "Reading several properties at once gives the state of one moment", "statement": "ReadMultiProperty asked of a device that answers from a state changing at any time returns all requested properties as they were together at one moment, the moment of the first attempt that was answered without access error; values of different moments are never mixed; it fails exactly when neither attempt was answered so.", "quantifier": "all devices (state machines), changes between attempts, lists of objects and properties, losses, invoke ids, devices on the local network or behind a router", "why_tests_cant": "the answer has to be related to a state of the device that changes concurrently, for unbounded lists and all losses.", "anchors": ["readmulti.go: ReadMultiProperty, sendReadMultipleProperty", "encoding/readmultiple.go: ReadMultipleProperty", "encoding/readmultipleack.go: ReadMultiplePropertyAck", "device.go: handleMsg"]}
{"id": "C122", "title": "Writing several properties at once does what the device reports", "statement": "WriteMultiProperty told to a device that carries the writes out in order until one is refused: the call succeeds exactly when an attempt was carried out to its end and its answer arrived, and otherwise fails; after success every property named holds the value written to it last; after failure each named property holds its old value or one written to it; nothing else changes.", "quantifier": "all devices (state machines), states, lists of objects and writes without priority, losses, invoke ids", "why_tests_cant": "it needs every pattern of losses and refusals over lists of any length and the state of the device afterwards.", "anchors": ["writemulti.go: WriteMultiProperty, sendWriteMultipleProperty", "encoding/writemultiple.go", "device.go: handleMsg"]}
{"id": "C123", "title": "Calls that share a client behave as if each took place at one moment", "statement": "Let goroutines call ReadProperty and WriteProperty of one client on devices that answer by the standard, over a network that loses, repeats and reorders messages but delivers none after its call. Then the calls are linearizable: there is an order of single moments, each during its call, such that every result other than an error is that of the device in the state of that moment.", "quantifier": "all schedules of goroutines, timers, losses, repetitions and reorderings; all devices (state machines), states, values, changes from elsewhere; any number of goroutines, calls and devices, local or behind routers", "why_tests_cant": "linearizability is about all interleavings of unboundedly many calls with the network; a test sees one of them.", "anchors": ["readprop.go: ReadProperty", "writeprop.go: WriteProperty", "tsm/transactions.go", "device.go: handleMsg, ClientRun"]}
{"id": "C124", "title": "Scanning a device that changes finds every object that was there all the time", "statement": "Let Objects scan a device whose object list, names and descriptions may change between any two attempts of any of its calls, over a network that loses messages. If it succeeds, every object on the list throughout the scan is in the result; every entry of the result was on the list at a moment of the scan and has the name and description it had at a later one; no object occurs twice. If it fails, a call was not answered, the list had become shorter or an object had gone. A list that does not change is returned whole or not at all.", "quantifier": "all devices (state machines), inventories of any length, changes between attempts, losses, map orders, max APDU lengths, devices local or behind a router", "why_tests_cant": "the result is put together from unboundedly many calls, each seeing another state; tests use a device that stands still.", "anchors": ["objectlist.go: Objects, objectsRange, objectList, allObjectInformation, objectInformation", "readmulti.go: ReadMultiProperty", "readprop.go: ReadProperty"]}
{"id": "C125", "title": "Requests and discovery on one client do not disturb each other", "statement": "Let goroutines of one client make requests (ReadProperty, WriteProperty, ReadMultiProperty, WriteMultiProperty) and discovery calls (WhoIs, WhatIsNetworkNumber, WhoIsRouterToNetwork) at the same time, while datagrams of every kind arrive. Each request returns what it returns on a client used for requests only, each discovery call what it returns on a client used for discovery only, given the same datagrams. Even when discovery hangs for ever (C111), every request can still end, and an answer that arrives still ends the request waiting for it with that answer.", "quantifier": "all schedules of goroutines, timers and datagrams, any number of goroutines and calls of both kinds, all datagrams", "why_tests_cant": "it is about all interleavings of two subsystems that share goroutines and the receive path; a hang in one of them appears in few schedules.", "anchors": ["device.go: handleMsg, ClientRun, NewClient", "tsm/transactions.go", "utsm/subscriber.go", "utsm/utsm.go", "whois.go: WhoIs", "readprop.go: ReadProperty", "writeprop.go: WriteProperty"]}
{"id": "C126", "title": "Every request returns", "statement": "Let any number of goroutines use one client for requests and discovery, for ever. As long as goroutines that can go on are run again and again and timers fire, every call of ReadProperty, WriteProperty, ReadMultiProperty and WriteMultiProperty returns, no matter what arrives, what the other calls do and whether discovery hangs; no call starves waiting for a lock, and it takes a bounded number of steps of its own.", "quantifier": "all infinite fair executions of the client: all schedules, all datagrams, any number of goroutines and calls of both kinds", "why_tests_cant": "it is a liveness property of infinite executions; a test sees finitely many steps of one schedule.", "anchors": ["tsm/transactions.go: ID, Send, Receive, Put", "device.go: handleMsg", "readprop.go: ReadProperty", "writeprop.go: WriteProperty", "readmulti.go: ReadMultiProperty", "writemulti.go: WriteMultiProperty"]}
{"id": "C127", "title": "Every discovery call returns", "statement": "Let any number of goroutines use one client for requests and discovery, for ever. As long as goroutines that can go on are run again and again and timers fire, in particular the overall time-out of Subscribe, every call of WhoIs, WhoIsRouterToNetwork and WhatIsNetworkNumber returns, whatever arrives and whatever the other calls do.", "quantifier": "all infinite fair executions of the client: all schedules, all datagrams, any number of goroutines and calls of both kinds", "why_tests_cant": "it is a liveness property of infinite executions with channels, two kinds of mutexes and timers; a test sees finitely many steps of one schedule.", "anchors": ["utsm/subscriber.go: Subscribe", "utsm/utsm.go: Publish, newSubscriber, removeSubscriber", "whois.go: WhoIs", "whoisrouter.go: WhoIsRouterToNetwork", "whatnetwork.go: WhatIsNetworkNumber", "device.go: handleMsg"]}
{"id": "C128", "title": "Requests return in time", "statement": "If goroutines that can go on do so without delay, a request returns within the sum of its time-outs, whatever arrives and whatever the other calls do: ReadProperty within 6 s, WriteProperty and WriteMultiProperty within 11 s, ReadMultiProperty within 20 s.", "quantifier": "all timed executions of the client in which time passes only while every goroutine waits: all datagrams, any number of goroutines and calls of both kinds, all orders of steps", "why_tests_cant": "it is a bound over all executions; a test measures one, and the waits for an id, for the lock and for the answer add up differently in each.", "anchors": ["tsm/transactions.go: ID, Receive", "readprop.go: ReadProperty", "writeprop.go: WriteProperty", "readmulti.go: ReadMultiProperty", "writemulti.go: WriteMultiProperty"]}
{"id": "C129", "title": "No request gives up early", "statement": "A request that reports a time-out has waited the whole time: 5 s for every attempt that brought no answer, and one that reports the lack of a transaction id has waited 1 s (ReadMultiProperty 10 s) for one, no matter how goroutines are scheduled and how long their steps take.", "quantifier": "all timed executions of the client, prompt or not: all datagrams, any number of goroutines and calls of both kinds", "why_tests_cant": "a timer that runs from the wrong moment or is shared between attempts shows in few schedules, and only if the test measures the time there.", "anchors": ["tsm/transactions.go: ID, Receive", "readprop.go: ReadProperty", "writeprop.go: WriteProperty", "readmulti.go: ReadMultiProperty", "writemulti.go: WriteMultiProperty"]}
{"id": "C130", "title": "An answer that comes in time is not lost", "statement": "When a datagram with the invoke id of a request arrives while the request awaits its answer, even before it has begun to wait, and goroutines that can go on do so without delay, then that attempt ends with an answer and not with a time-out, whatever else arrives and whatever the other calls do.", "quantifier": "all timed executions of the client in which time passes only while every goroutine waits; all moments of the arrival between transmission and time-out, all datagrams", "why_tests_cant": "the answer passes through a handler, the lock, the table and an unbuffered channel while other calls use the same pool of channels; a lost wake-up shows in one order of many.", "anchors": ["device.go: handleMsg", "tsm/transactions.go: Send, Receive, Put", "readprop.go: ReadProperty", "writeprop.go: WriteProperty"]}
{"id": "C131", "title": "Discovery calls return in time", "statement": "If goroutines that can go on do so without delay, WhoIs, WhoIsRouterToNetwork and WhatIsNetworkNumber return within 10 s, and within 2 s after the last announcement, whatever arrives and whatever the other calls do.", "quantifier": "all timed executions of the client in which time passes only while every goroutine waits: all datagrams, any number of goroutines and calls of both kinds, all orders of steps", "why_tests_cant": "it is a bound over all executions; the call that does not return needs two announcements in the moment the time-out passes, and how long it hangs no test can wait for.", "anchors": ["utsm/subscriber.go: Subscribe, getTimeout", "utsm/utsm.go: Publish, removeSubscriber", "whois.go: WhoIs", "whoisrouter.go: WhoIsRouterToNetwork", "whatnetwork.go: WhatIsNetworkNumber"]}
{"id": "C132", "title": "Discovery gives devices time to answer", "statement": "A discovery call waits at least 2 s for answers, and after each announcement it takes 2 s more, up to 10 s in all, no matter how goroutines are scheduled and how long their steps take.", "quantifier": "all timed executions of the client, prompt or not: all datagrams, any number of goroutines and calls of both kinds", "why_tests_cant": "the moment of the last announcement is shared between the publisher and the subscriber, read and written in different goroutines; a stale one shortens the wait in few schedules only.", "anchors": ["utsm/subscriber.go: Subscribe, getTimeout", "utsm/utsm.go: Publish, newSubscriber", "whois.go: WhoIs", "whoisrouter.go: WhoIsRouterToNetwork", "whatnetwork.go: WhatIsNetworkNumber"]}
{"id": "C133", "title": "What is announced while a discovery call listens is in its result", "statement": "When a device announces itself while a WhoIs for its instance listens, before its wait is over, and from then on goroutines that can go on do so without delay, then the result has the device; likewise the networks and network numbers for the other two calls, whatever else arrives and whatever the other calls do. A call that could not send its request returns an error instead.", "quantifier": "all timed executions of the client; all moments of the arrival between the registration and the end of the wait, all datagrams, any number of other calls", "why_tests_cant": "the announcement passes through a handler, the lock of the manager and a channel of one place while the wait is recomputed from a shared time; an announcement is lost in one order of many.", "anchors": ["device.go: handleMsg", "utsm/subscriber.go: Subscribe, getTimeout", "utsm/utsm.go: Publish, removeSubscriber", "whois.go: WhoIs", "whoisrouter.go: WhoIsRouterToNetwork", "whatnetwork.go: WhatIsNetworkNumber"]}
{"id": "C134", "title": "Constructing a client does not crash", "statement": "NewClient never panics: whatever interface, IP address, subnet and port are given, it returns a client or an error.", "quantifier": "all texts for interface and IP address, all numbers, whether or not the port can be listened on", "why_tests_cant": "the arguments are texts; only a proper IPv6 address with a mask fails, and only on a machine where the port is free.", "anchors": ["device.go: NewClient", "datalink/udp.go: NewUDPDataLink, NewUDPDataLinkFromIP, dataLink, IPPortToAddress, UDPToAddress"]}
{"id": "C135", "title": "A client for a named interface uses its first IPv4 address", "statement": "Given the name of an interface NewClient takes the first IPv4 address of that interface, whatever IPv6 addresses come before it, listens on the configured port and broadcasts to the subnet of that address; if the interface has only IPv6 addresses, does not exist, or the port is in use it reports an error.", "quantifier": "all interface names, all lists of addresses of the interface, all masks and ports", "why_tests_cant": "a test machine has the interfaces it has; most lists of addresses occur on no machine of the test.", "anchors": ["device.go: NewClient", "datalink/udp.go: NewUDPDataLink, FindCIDRAddress, dataLink"]}
{"id": "C136", "title": "The notation of an IPv4 address does not matter", "statement": "A data link opened with an IPv4 address written in IPv6 notation (::ffff:192.168.9.7/118) is like the one opened with the dotted address and mask (192.168.9.7/22): same own address, same broadcast address.", "quantifier": "all IPv4 addresses, all their IPv6 notations, all masks and ports", "why_tests_cant": "the broadcast address is computed from the first four of sixteen octets; it differs for every such text, but no test writes an address that way.", "anchors": ["datalink/udp.go: dataLink"]}
{"id": "C137", "title": "ValidIP accepts exactly the addresses", "statement": "ValidIP accepts a text exactly if it is an IPv4 address, perhaps followed by /32, or an IPv6 address, perhaps followed by /128.", "quantifier": "all texts", "why_tests_cant": "the set of texts is infinite, the grammar of IPv6 texts has many forms.", "anchors": ["helpers/validation/vaildation.go: ValidIP, NormaliseIPAddr"]}
{"id": "C138", "title": "ValidCIDR accepts exactly the addresses with a possible mask", "statement": "ValidCIDR accepts an address text and a mask length exactly if the text is an IP address and the length lies between 0 and 32 (IPv4) or 128 (IPv6).", "quantifier": "all texts, all mask lengths, negative ones too", "why_tests_cant": "the set of texts is infinite, the grammar of IPv6 texts has many forms.", "anchors": ["helpers/validation/vaildation.go: ValidCIDR"]}
{"id": "C139", "title": "A client shared by goroutines has no data races", "statement": "However many goroutines use one client at the same time, for requests and for discovery, no variable of the client is written by one goroutine while another may be accessing it.", "quantifier": "all interleavings of any number of goroutines, calls, datagrams, timeouts and decisions of the object pool", "why_tests_cant": "the race detector reports the races of the executions it sees; a test passes through a few of the interleavings.", "anchors": ["tsm/transactions.go: ID, Send, Receive, Put", "whois.go: WhoIs", "whoisrouter.go: WhoIsRouterToNetwork", "whatnetwork.go: WhatIsNetworkNumber", "utsm/utsm.go: Publish"]}
{"id": "C140", "title": "Objects on a shared client does what it does on a client of its own", "statement": "While other goroutines make requests and discovery calls on the same client, Objects sends the datagrams and returns the result that it does on a client it has to itself, for answers to its requests that have arrived for exactly these requests.", "quantifier": "all interleavings of the goroutine that calls Objects with any number of other goroutines, calls, datagrams, timeouts and decisions of the object pool; all devices, map orders and lengths of the list", "why_tests_cant": "an inventory of a device makes many requests; a test of a shared client sees one interleaving of them, and the answer that crosses over needs a handler overtaken by the time-out and a recycled object.", "anchors": ["objectlist.go: Objects, objectList, objectListLen, objectsRange, allObjectInformation, objectInformation", "readprop.go: ReadProperty", "readmulti.go: ReadMultiProperty", "tsm/transactions.go: ID, Send, Receive, Put"]}
{"id": "C141", "title": "How long Objects takes", "statement": "When Objects returns it has taken at most 6 s for the length of the list and 20 s for each further request; a success of m objects from a list reported to have n elements makes at most ceil(n / (MaxApdu / 20)) + ceil(m / 5) of those. At every moment before, the requests that have returned and the next one account for the time, unless an answer keeps a decoder for ever.", "quantifier": "all timed executions of any number of goroutines in which time passes only while nobody can go on and the caller does not tarry between its requests; all devices, answers and outcomes", "why_tests_cant": "the longest waits take minutes and depend on the device; a test sees the time of one inventory.", "anchors": ["objectlist.go: Objects, objectList, objectListLen, objectsRange, allObjectInformation, objectInformation", "readprop.go: ReadProperty", "readmulti.go: ReadMultiProperty", "tsm/transactions.go: ID, Receive"]}
{"id": "C142", "title": "A closed client fails fast", "statement": "A request made on a client whose socket is closed returns an error, never a result, and does so within the wait for a transaction id (1 s, ReadMultiProperty 10 s): it never waits for an answer.", "quantifier": "all timed executions of any number of goroutines in which no transmission succeeds after the request began, for the time those in which time passes only while nobody can go on; whatever datagrams are still being handled", "why_tests_cant": "a test closes a client at one moment; the request may begin while others wait, hold the ids or have answers under way.", "anchors": ["device.go: Close, Send", "datalink/udp.go: Close, Send", "readprop.go: ReadProperty", "writeprop.go: WriteProperty", "readmulti.go: ReadMultiProperty", "writemulti.go: WriteMultiProperty", "tsm/transactions.go: ID"]}
{"id": "C143", "title": "The scans of package network on a shared client do what they do on a client of their own", "statement": "While other goroutines make requests and discovery calls on the same client, NetworkDiscover, DeviceDiscover, DeviceObjects and GetDevicePoints send the requests and return the result that they do on a client they have to themselves, for answers that have arrived for exactly these requests.", "quantifier": "all interleavings of the scanning goroutine with any number of other goroutines, calls, datagrams, timeouts and decisions of the object pool; all devices found, all objects listed", "why_tests_cant": "a scan makes several requests per device or object, each of which may cross with those of others; a test sees one interleaving.", "anchors": ["network/whois.go: NetworkDiscover, GetDeviceDetails", "network/discover.go: DeviceDiscover, GetDeviceDetails, GetDevicePoints", "network/objects.go: DeviceObjects", "network/points.go: PointDetails", "readprop.go: ReadProperty", "tsm/transactions.go: ID, Send, Receive, Put"]}
{"id": "C144", "title": "How long the scans of package network take", "statement": "After its Who-Is a discovery takes at most 24 s per device found, whatever the devices do. DeviceObjects takes at most 12 s and 6 s for each object it returns; GetDevicePoints takes, beyond 12 s and 6 s per listed object, at most 12 s for each point it returns, and it returns one point per listed object that is not a device. At every moment of a scan 6 s for each request returned and 6 s for the next account for the time.", "quantifier": "all timed executions of any number of goroutines in which time passes only while nobody can go on and the scan does not tarry between its requests; all devices, answers and outcomes", "why_tests_cant": "a scan of silent devices takes minutes; the time of one scan says nothing of the next.", "anchors": ["network/whois.go: NetworkDiscover, GetDeviceDetails", "network/discover.go: DeviceDiscover, GetDeviceDetails, GetDevicePoints", "network/objects.go: DeviceObjects", "network/points.go: PointDetails", "readprop.go: ReadProperty", "tsm/transactions.go: ID, Receive"]}
{"id": "C145", "title": "Options of WhoIs can be used again", "statement": "A caller that keeps its WhoIsOpts and changes fields between calls gets in each call what the fields it has written say: the range asked for and the network the request is addressed to.", "quantifier": "all sequences of calls and of fields written between them, all values, all broadcast addresses", "why_tests_cant": "a test makes one call with fresh options; what a call leaves behind in its arguments shows in a later one.", "anchors": ["whois.go: WhoIsOpts, WhoIs", "network/whois.go: WhoIs, NetworkDiscover", "network/discover.go: DeviceDiscover"]}
{"id": "C146", "title": "Discovery calls leave nothing behind", "statement": "A discovery call that has returned has taken back all it set up: its subscription, and the goroutine it started for the transmission has ended.  A client that looks for devices every minute for months does not grow.", "quantifier": "all numbers of goroutines, all interleavings, all received datagrams, all outcomes of the transmissions, all timings", "why_tests_cant": "a test looks at what a call returns; a goroutine that stays blocked on a channel shows nowhere, and it takes a transmission that fails late.", "anchors": ["whois.go: WhoIs", "whoisrouter.go: WhoIsRouterToNetwork", "whatnetwork.go: WhatIsNetworkNumber", "utsm/subscriber.go: Subscribe", "utsm/utsm.go: newSubscriber, removeSubscriber"]}
{"id": "C147", "title": "The multi command shows what the device has of what it asks for", "statement": "The command multi shows the name and the present value of analog outputs 1 and 2 of the device that the flags name, as far as the device has them, for every device that answers; when something fails it tells so and does not crash.", "quantifier": "all flags naming a device, all devices and answers, all outcomes of the three requests, all interfaces and ports", "why_tests_cant": "a test runs the command against one small device; devices with long object lists, devices without one of the outputs and hosts without the interface are not at hand.", "anchors": ["cmd/cmd/readmultiprop.go: readMulti", "readprop.go: ReadProperty", "readmulti.go: ReadMultiProperty", "helpers/data/data.go: ToUint32", "device.go: NewClient, ClientRun"]}
{"id": "C148", "title": "A scan of the network, from the Who-Is to the last answer", "statement": "NetworkDiscover and DeviceDiscover are done at most 10 s and 24 s per device found after they were called, and not before 2 s; the list of objects of a device, found with a Who-Is of its own, takes 22 s and 6 s per object, its points further 12 s each; that Who-Is finds the device itself only.  NetworkDiscover lists no device twice, none outside the range or that has not announced itself, and every device of the range that announces itself while the call listens, whatever other goroutines do with the client.", "quantifier": "all timed executions of any number of goroutines in which time passes only while nobody can go on and the scan does not tarry; all options, devices, announcements, answers and outcomes", "why_tests_cant": "a scan takes a Who-Is and four requests per device, each of which meets other traffic; a test sees one network and one interleaving.", "anchors": ["network/whois.go: NetworkDiscover, GetDeviceDetails", "network/discover.go: DeviceDiscover, GetDevicePoints", "network/objects.go: DeviceObjects", "whois.go: WhoIs", "utsm/utsm.go: Subscribe, Publish", "readprop.go: ReadProperty"]}
{"id": "C149", "title": "Scanning again and again does not make the process grow", "statement": "A program that starts the receive loop of its client once has a bounded number of them, whatever it calls later; every datagram that comes is handed to the handlers once and as it came, in the order of arrival; the client hears as long as it is open; and after Close all the loops end, with nothing received any more.", "quantifier": "all sequences of calls of package network and of its own starts, all datagrams and socket errors, all interleavings of any number of loops", "why_tests_cant": "a goroutine that is left over shows nowhere, and a datagram that overtakes another does so under load only.", "anchors": ["network/whois.go: Whois, NetworkDiscover", "network/base.go: NetworkRun", "network/discover.go: DeviceDiscover, GetDevicePoints", "network/objects.go: DeviceObjects", "device.go: ClientRun, ClientClose", "datalink/udp.go: Receive, Close"]}
{"id": "C150", "title": "Only an answer to the request counts as its answer", "statement": "ReadProperty, ReadMultiProperty and the point reads give a value only if the device sent it in an unsegmented acknowledgement of the service asked for, about the object, property and index asked for; a segment of a longer answer is never taken for a whole one.", "quantifier": "all requests, all payloads delivered for the transaction, all outcomes of the transmissions", "why_tests_cant": "a test answers what was asked; answers about something else come from late or duplicated datagrams, faulty devices and answers too long for one datagram.", "anchors": ["readprop.go: ReadProperty", "readmulti.go: ReadMultiProperty", "writeprop.go: WriteProperty", "encoding/apdu.go: APDU, apduComplexAck", "encoding/readprop.go: ReadProperty", "network/points.go: PointReadFloat32"]}
{"id": "C151", "title": "Datagrams that are not frames for this client are ignored", "statement": "A received datagram has an effect only if it is a BACnet/IP frame (type 0x81, a length that is that of the datagram, network layer version 1) with an original or forwarded message whose destination is this client or everybody; a datagram that has lost its end is not taken for a whole one.", "quantifier": "all datagrams, all sources, all states of the transactions", "why_tests_cant": "a test sends well formed frames to the client; other protocols on the port, damaged frames and traffic for other networks are not produced.", "anchors": ["device.go: handleMsg", "encoding/bvlc.go: BVLC", "encoding/npdu.go: NPDU", "encoding/readprop.go: ReadProperty"]}
{"id": "C152", "title": "Bit strings can be looked at", "statement": "Of every bit string that was read without an error, or made with NewBitString and SetBit, GetValue gives the bits, Byte the octets these make up and BytesUsed their number, none of them crashes, and a bit outside of the string is false and cannot be set.", "quantifier": "all octets received, all sequences of SetBit, all sizes, all indices", "why_tests_cant": "2^120 values, and the octets received need not be what a conforming device sends.", "anchors": ["btypes/bitstring.go: NewBitString, GetValue, SetBit, Bit, BytesUsed, Byte, BitsCapacity", "encoding/decoder.go: (*Decoder).bitString", "cmd/cmd/readprop.go: readProp"]}
{"id": "C153", "title": "The home directory is found and remembered", "statement": "Dir gives the directory of the user on every supported system, from the environment, the password file or the shell, and an error only if none of them tells one, never an empty path; it gives the same until Reset, whatever changes; Expand of a path in it leads where the path leads from there, other paths are left as they are and those of other users refused.", "quantifier": "all environments, password lines, outputs and failures of the commands, all sequences of calls, all paths", "why_tests_cant": "a test has one machine with one user; the cache makes later calls depend on earlier ones.", "anchors": ["helpers/homedir/homedir.go: Dir, Expand, Reset, dirUnix, dirWindows", "cmd/cmd/root.go: initConfig"]}
{"id": "C154", "title": "Names of properties and services stay what they are, whatever callers do with the maps they are given", "statement": "Keys and ListAll give a map of the names. Whatever a program then puts into it or deletes from it, Get, GetType and GetString keep giving the standard's numbers and names to all other callers, and the next map is complete. A service looked up by name has that name, whether or not it has been marked as supported.", "quantifier": "all sequences of calls and edits of the maps handed out, all names, all iteration orders of the maps", "why_tests_cant": "a test looks up a few names once; the fault needs another caller that has edited its map before.", "anchors": ["btypes/property.go: Keys, Get", "btypes/services/services.go: ListAll, GetType, GetString, supportedList"]}
{"id": "C155", "title": "Objects of a device are counted once, listed once and told apart in print", "statement": "Len is the number of objects in an object map and ObjectSlice lists every one of them exactly once, however they are spread over the types and whatever the order of iteration. After any sequence of entries the map has the last object entered for every identifier. Two object identifiers that print alike are the same.", "quantifier": "all object maps, all sequences of entries, all iteration orders, all identifiers", "why_tests_cant": "the maps are nested and iterated in random order; a test has one map of a few objects.", "anchors": ["btypes/object_map.go: Len", "btypes/device.go: ObjectSlice", "btypes/object.go: ObjectID.String, ObjectType.String", "objectlist.go"]}
{"id": "C156", "title": "The printed text of a reading tells what was read", "statement": "From the text that String makes of the result of a ReadPropertyMultiple one can tell which objects were read, which properties of them with which array index, in which order, and what each value looks like: two results that print alike agree in all of that. Values of the same kind that look alike are equal.", "quantifier": "all results: any number of objects and properties, all property numbers, all values", "why_tests_cant": "a test prints one result and compares it with one text; that no two results share a text, and that no value can imitate further lines, is about all pairs.", "anchors": ["btypes/property.go: MultiplePropertyData.String, String", "btypes/object.go: ObjectID.String"]}
{"id": "C157", "title": "The list of the known properties is complete and in columns", "statement": "The list flag of the write and multi commands prints a heading, a rule and one line for every property that can be asked for by name, with its name at the beginning and its number at the column of the heading; it never crashes, whatever the order in which the table is gone through.", "quantifier": "all pairs of iteration orders of the table", "why_tests_cant": "the table is iterated twice in random orders, and the width is computed from it; a negative width would be a panic.", "anchors": ["btypes/property.go: PrintAllProperties", "cmd/cmd/readmultiprop.go", "cmd/cmd/writeprop.go"]}
