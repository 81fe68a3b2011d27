(* GENERATED by tools/gen_tables.py from the text of /repo/src/pynmeagps/nmeatypes_*.py - do not edit. *)
From Verif Require Import PyBase.
Local Open Scope N_scope.
Local Open Scope string_scope.

(* nmeatypes_core.py:118 NMEA_TALKERS *)
Definition NMEA_TALKERS : list (pystr * pystr) := [
  (u "AB", u "Independent AIS Base Station") (* 122 *);
  (u "AD", u "Dependent AIS Base Station") (* 123 *);
  (u "AG", u "Heading Track Controller (Autopilot): General") (* 127 *);
  (u "AI", u "Mobile Class A or B AIS Station") (* 128 *);
  (u "AP", u "Heading Track Controller (Autopilot): Magnetic") (* 129 *);
  (u "AN", u "AIS Aids to Navigation Station") (* 130 *);
  (u "AR", u "AIS Receiving Station") (* 131 *);
  (u "AS", u "AIS Station (ITU_R M1371, (Limited Base Station))") (* 132 *);
  (u "AT", u "AIS Transmitting Station") (* 133 *);
  (u "AX", u "AIS Simplex Repeater Station") (* 134 *);
  (u "BI", u "Bilge Systems") (* 135 *);
  (u "BN", u "Bridge Navigational Watch Alarm System") (* 136 *);
  (u "CA", u "Central Alarm Management") (* 137 *);
  (u "CD", u "Digital Selective Calling (DSC)") (* 141 *);
  (u "CR", u "Data Receiver") (* 142 *);
  (u "CS", u "Satellite") (* 143 *);
  (u "CT", u "Radio-Telephone (MF/HF)") (* 144 *);
  (u "CV", u "Radio-Telephone (VHF)") (* 145 *);
  (u "CX", u "Scanning Receiver") (* 146 *);
  (u "DE", u "DECCA Navigator") (* 147 *);
  (u "DF", u "Direction Finder") (* 148 *);
  (u "DP", u "Dynamic Position") (* 149 *);
  (u "DU", u "Duplex Repeater Station") (* 150 *);
  (u "EC", u "Electronic Chart System (ECS)") (* 151 *);
  (u "EI", u "Electronic Chart Display & Information System (ECDIS)") (* 152 *);
  (u "EP", u "Emergency Position Indicating Beacon (EPIRB)") (* 153 *);
  (u "ER", u "Engine Room Monitoring Systems") (* 154 *);
  (u "FD", u "Fire Door Controller/Monitoring Point") (* 155 *);
  (u "FE", u "Fire Extinguisher System") (* 156 *);
  (u "FR", u "Fire Detection Point") (* 157 *);
  (u "FS", u "Fire Sprinkler System") (* 158 *);
  (u "GA", u "Galileo Positioning System") (* 162 *);
  (u "GB", u "BDS (BeiDou System)") (* 163 *);
  (u "BD", u "BDS (BeiDou System)") (* 164 *);
  (u "GI", u "NavIC (IRNSS)") (* 165 *);
  (u "GL", u "GLONASS Receiver") (* 166 *);
  (u "GN", u "Global Navigation Satellite System (GNSS)") (* 167 *);
  (u "GP", u "Global Positioning System (GPS)") (* 168 *);
  (u "GQ", u "QZSS") (* 169 *);
  (u "P", u "Proprietary") (* 170 *);
  (u "HC", u "Compass, Magnetic") (* 174 *);
  (u "HE", u "Gyro, North Seeking") (* 175 *);
  (u "HF", u "Fluxgate") (* 176 *);
  (u "HN", u "Gyro, Non-North Seeking") (* 177 *);
  (u "HD", u "Hull Door Monitoring") (* 181 *);
  (u "HS", u "Hull Stress Monitoring") (* 182 *);
  (u "IC", u "Integrated Communications System") (* 183 *);
  (u "II", u "Integrated Instrumentation") (* 184 *);
  (u "IN", u "Integrated Navigation") (* 185 *);
  (u "LC", u "Loran C") (* 186 *);
  (u "MP", u "Microprocessor  Controller") (* 187 *);
  (u "ND", u "Network Device") (* 188 *);
  (u "NL", u "Navigation Light Controller") (* 189 *);
  (u "RA", u "Radar and/or Radar Plotting") (* 190 *);
  (u "RC", u "Propulsion Machinery including Remote Control") (* 191 *);
  (u "SA", u "Physical Shore AIS Station") (* 192 *);
  (u "SC", u "Steering Control System/Device") (* 193 *);
  (u "SD", u "Sounder, Depth") (* 194 *);
  (u "SG", u "Steering Gear/Steering Engine") (* 195 *);
  (u "SI", u "Serial to Network Gateway Function") (* 196 *);
  (u "SN", u "Electronic Positioning System") (* 197 *);
  (u "SS", u "Sounder, Scanning") (* 198 *);
  (u "TC", u "Track Control System") (* 199 *);
  (u "TI", u "Turn Rate Indicator") (* 200 *);
  (u "UP", u "Microprocessor Controller") (* 201 *);
  (u "U0", u "User-configured talker identifier") (* 202 *);
  (u "U1", u "User-configured talker identifier") (* 203 *);
  (u "U2", u "User-configured talker identifier") (* 204 *);
  (u "U3", u "User-configured talker identifier") (* 205 *);
  (u "U4", u "User-configured talker identifier") (* 206 *);
  (u "U5", u "User-configured talker identifier") (* 207 *);
  (u "U6", u "User-configured talker identifier") (* 208 *);
  (u "U7", u "User-configured talker identifier") (* 209 *);
  (u "U8", u "User-configured talker identifier") (* 210 *);
  (u "U9", u "User-configured talker identifier") (* 211 *);
  (u "VD", u "Doppler") (* 215 *);
  (u "VM", u "Speed Log, Water, Magnetic") (* 216 *);
  (u "VR", u "Voyage Data Recorder") (* 217 *);
  (u "VW", u "Speed Log, Water, Mechanical") (* 218 *);
  (u "WD", u "Watertight Door Controller/Monitoring Panel") (* 219 *);
  (u "WI", u "Weather Instruments") (* 220 *);
  (u "WL", u "Water Level Detection Systems") (* 221 *);
  (u "YX", u "Transducer") (* 222 *);
  (u "ZA", u "Atomic Clock") (* 226 *);
  (u "ZC", u "Chronometer") (* 227 *);
  (u "ZQ", u "Quartz") (* 228 *);
  (u "ZV", u "Radio Update") (* 229 *)
].

(* nmeatypes_core.py:243 NMEA_MSGIDS *)
Definition NMEA_MSGIDS : list (pystr * pystr) := [
  (u "AAM", u "Waypoint arrival alarm") (* 244 *);
  (u "ABK", u "AIS addressed and binary broadcast acknowledgement") (* 245 *);
  (u "ABM", u "AIS addressed binary and safety related message") (* 246 *);
  (u "ACA", u "AIS channel assignment message") (* 247 *);
  (u "ACK", u "Acknowledge alarm") (* 248 *);
  (u "ACN", u "Alert Command") (* 249 *);
  (u "ACS", u "AIS channel management information source") (* 250 *);
  (u "AIR", u "AIS interrogation request") (* 252 *);
  (u "AKD", u "Acknowledge detail alarm condition7") (* 253 *);
  (u "ALA", u "Report detailed alarm condition") (* 254 *);
  (u "ALC", u "Cyclic alert list") (* 255 *);
  (u "ALF", u "Alert sentence") (* 256 *);
  (u "ALR", u "Set alarm state") (* 257 *);
  (u "APA", u "Auto Pilot A sentence") (* 258 *);
  (u "APB", u "Heading/track controller (autopilot) sentence") (* 259 *);
  (u "ARC", u "Alert command refused") (* 260 *);
  (u "BBM", u "AIS broadcast binary message") (* 261 *);
  (u "BEC", u "Bearing and distance to waypoint - Dead reckoning") (* 262 *);
  (u "BOD", u "Bearing origin to destination") (* 263 *);
  (u "BWC", u "Bearing and distance to waypoint - Great circle") (* 264 *);
  (u "BWR", u "Bearing and distance to waypoint - Rhumb line") (* 265 *);
  (u "BWW", u "Bearing waypoint to waypoint") (* 266 *);
  (u "CUR", u "Water current layer - Multi-layer water current data") (* 267 *);
  (u "DBT", u "Depth below transducer") (* 268 *);
  (u "DDC", u "Display dimming control") (* 269 *);
  (u "DOR", u "Door status detection") (* 270 *);
  (u "DPT", u "Depth") (* 271 *);
  (u "DSC", u "Digital selective calling information") (* 272 *);
  (u "DSE", u "Expanded digital selective calling") (* 273 *);
  (u "DTM", u "Datum reference") (* 274 *);
  (u "EPV", u "Command or report equipment property value") (* 275 *);
  (u "ETL", u "Engine telegraph operation status") (* 276 *);
  (u "EVE", u "General event message") (* 277 *);
  (u "FIR", u "Fire detection") (* 278 *);
  (u "FMI", u "Feyman IMU roll, pitch, yaw") (* 279 *);
  (u "FSI", u "Frequency set information") (* 280 *);
  (u "GAQ", u "Poll Standard Message - Talker ID GA (Galileo)") (* 281 *);
  (u "GBQ", u "Poll Standard Message - Talker ID GB (BeiDou)") (* 282 *);
  (u "GBS", u "GNSS satellite fault detection") (* 283 *);
  (u "GEN", u "Generic binary information") (* 284 *);
  (u "GFA", u "GNSS fix accuracy and integrity") (* 285 *);
  (u "GGA", u "Global positioning system fix data") (* 286 *);
  (u "GLL", u "Geographic position - Latitude/longitude") (* 287 *);
  (u "GLQ", u "Poll Standard Message - Talker ID GL (GLONASS)") (* 288 *);
  (u "GMP", u "GNSS Map Projection Fix Data") (* 289 *);
  (u "GNQ", u "Poll Standard Message - Talker ID GN (Any GNSS)") (* 290 *);
  (u "GNS", u "GNSS Fix Data") (* 291 *);
  (u "GPQ", u "Poll Standard Message - Talker ID GP (GPS, SBAS)") (* 292 *);
  (u "GQQ", u "Poll Standard Message - Talker ID GQ (QZSS)") (* 293 *);
  (u "GRS", u "GNSS range residuals") (* 294 *);
  (u "GSA", u "GNSS DOP and active satellites") (* 295 *);
  (u "GST", u "GNSS pseudorange noise statistics") (* 296 *);
  (u "GSV", u "GNSS satellites in view") (* 297 *);
  (u "HBT", u "Heartbeat supervision sentence") (* 298 *);
  (u "HCR", u "Heading correction report") (* 299 *);
  (u "HDG", u "Heading, deviation and variation") (* 300 *);
  (u "HDM", u "Heading, Magnetic") (* 301 *);
  (u "HDT", u "Heading true") (* 302 *);
  (u "HMR", u "Heading monitor receive") (* 303 *);
  (u "HMS", u "Heading monitor set") (* 304 *);
  (u "HRM", u "heel angle, roll period and roll amplitude measurement device") (* 305 *);
  (u "HSC", u "Heading steering command") (* 306 *);
  (u "HSS", u "Hull stress surveillance systems") (* 307 *);
  (u "HTC", u "Heading/track control command") (* 308 *);
  (u "HTD", u "Heading /track control") (* 309 *);
  (u "LLQ", u "Leica local position and quality") (* 310 *);
  (u "LR1", u "AIS long-range reply sentence 1") (* 311 *);
  (u "LR2", u "AIS long-range reply sentence 2") (* 312 *);
  (u "LR3", u "AIS long-range reply sentence 3") (* 313 *);
  (u "LRF", u "AIS long-range function") (* 314 *);
  (u "LRI", u "AIS long-range interrogation") (* 315 *);
  (u "MOB", u "Man over board notification") (* 316 *);
  (u "MSK", u "MSK receiver interface") (* 317 *);
  (u "MSS", u "MSK receiver signal status") (* 318 *);
  (u "MTW", u "Water temperature") (* 319 *);
  (u "MWD", u "Wind direction and speed") (* 320 *);
  (u "MWV", u "Wind speed and angle") (* 321 *);
  (u "NAK", u "Negative acknowledgement") (* 322 *);
  (u "NRM", u "NAVTEX receiver mask") (* 323 *);
  (u "NRX", u "NAVTEX received message") (* 324 *);
  (u "NSR", u "Navigation status report") (* 325 *);
  (u "OSD", u "Own ship data") (* 326 *);
  (u "POS", u "Device position and ship dimensions report or configuration") (* 327 *);
  (u "PRC", u "Propulsion remote control status") (* 328 *);
  (u "RLM", u "Return link message") (* 329 *);
  (u "RMA", u "Recommended minimum specific LORAN-C data") (* 330 *);
  (u "RMB", u "Recommended minimum navigation information") (* 331 *);
  (u "RMC", u "Recommended minimum specific GNSS data") (* 332 *);
  (u "ROR", u "Rudder order status") (* 333 *);
  (u "ROT", u "Rate of turn") (* 334 *);
  (u "RRT", u "Report route transfer") (* 335 *);
  (u "RPM", u "Revolutions") (* 336 *);
  (u "RSA", u "Rudder sensor angle") (* 337 *);
  (u "RSD", u "Radar system data") (* 338 *);
  (u "RTE", u "Routes") (* 339 *);
  (u "SFI", u "Scanning frequency information") (* 340 *);
  (u "SM1", u "SafetyNET Message, All Ships/NavArea") (* 341 *);
  (u "SM2", u "SafetyNET Message, Coastal Warning Area") (* 342 *);
  (u "SM3", u "SafetyNET Message, Circular Area address") (* 343 *);
  (u "SM4", u "SafetyNET Message, Rectangular Area Address") (* 344 *);
  (u "SMB", u "IMO SafetyNET Message Body") (* 345 *);
  (u "SPW", u "Security password sentence") (* 346 *);
  (u "SSD", u "AIS ship static data") (* 347 *);
  (u "STN", u "Multiple data ID") (* 348 *);
  (u "THS", u "True heading and status") (* 349 *);
  (u "TLB", u "Target label") (* 350 *);
  (u "TLL", u "Target latitude and longitude") (* 351 *);
  (u "TRA", u "Heading, Pitch & Roll Information") (* 352 *);
  (u "TRC", u "Thruster control data") (* 353 *);
  (u "TRL", u "AIS transmitter-non-functioning log") (* 354 *);
  (u "TRD", u "Thruster response data") (* 355 *);
  (u "TRF", u "Transit Fix Data") (* 356 *);
  (u "TTD", u "Tracked target data") (* 357 *);
  (u "TTM", u "Tracked target message") (* 358 *);
  (u "TUT", u "Transmission of multi-language text") (* 359 *);
  (u "TXT", u "Text transmission") (* 360 *);
  (u "UID", u "User identification code transmission") (* 361 *);
  (u "VBW", u "Dual ground/water speed") (* 362 *);
  (u "VDM", u "AIS VHF data-link message") (* 363 *);
  (u "VDO", u "AIS VHF data-link own-vessel report") (* 364 *);
  (u "VDR", u "Set and drift") (* 365 *);
  (u "VER", u "Version") (* 366 *);
  (u "VHW", u "Water speed and heading") (* 367 *);
  (u "VLW", u "Dual ground/water distance") (* 368 *);
  (u "VPW", u "Speed measured parallel to wind") (* 369 *);
  (u "VSD", u "AIS voyage static data") (* 370 *);
  (u "VTG", u "Course over ground and ground speed") (* 371 *);
  (u "WAT", u "Water level detection") (* 372 *);
  (u "WCV", u "Waypoint closure velocity") (* 373 *);
  (u "WNC", u "Distance waypoint to waypoint") (* 374 *);
  (u "WPL", u "Waypoint location") (* 375 *);
  (u "XDR", u "Transducer measurements") (* 376 *);
  (u "XTE", u "Cross-track error, measured") (* 377 *);
  (u "XTR", u "Cross-track error, dead reckoning") (* 378 *);
  (u "ZDA", u "Time and date") (* 379 *);
  (u "ZDL", u "Time and distance to variable point") (* 380 *);
  (u "ZFO", u "UTC and time from origin waypoint") (* 381 *);
  (u "ZTG", u "UTC and time to destination waypoint") (* 382 *);
  (u "GGAH", u "Global Positioning System Fix Data (Secondary Antenna)") (* 386 *);
  (u "GLLH", u "Geographic Position (Secondary Antenna)") (* 387 *);
  (u "GNSH", u "GNSS Fix Data (Secondary Antenna)") (* 388 *);
  (u "GRSH", u "GNSS Range Residuals (Secondary Antenna)") (* 389 *);
  (u "GSAH", u "GNSS DOP and Active Satellites (Secondary Antenna)") (* 390 *);
  (u "GSTH", u "GNSS Pseudorange Error Statistics (Secondary Antenna)") (* 391 *);
  (u "GSVH", u "GNSS Satellites in View (Secondary Antenna)") (* 392 *);
  (u "RMCH", u "Recommended Minimum Specific GNSS Data (Secondary Antenna)") (* 393 *);
  (u "VTGH", u "Course over Ground and Ground Speed (Secondary Antenna)") (* 394 *);
  (u "THS2", u "True Heading and Status") (* 395 *);
  (u "HPR", u "Attitude Parameters") (* 396 *);
  (u "HPR2", u "Attitude Parameters") (* 397 *);
  (u "TRA2", u "Heading, Pitch & Roll Information") (* 398 *);
  (u "ROT2", u "Rate of Turn") (* 399 *);
  (u "HPD", u "Positioning and Heading Information") (* 400 *);
  (u "FOO", u "Dummy message") (* 404 *)
].

(* nmeatypes_core.py:414 NMEA_MSGIDS_PROP *)
Definition NMEA_MSGIDS_PROP : list (pystr * pystr) := [
  (u "GRMB", u "DGPS Beacon Information") (* 421 *);
  (u "GRMC", u "Set Sensor Configuration information") (* 422 *);
  (u "GRMC1", u "Set Additional Sensor Configuration Information") (* 423 *);
  (u "GRME", u "Estimated Error Information") (* 424 *);
  (u "GRMF", u "GPS Fix Data sentence") (* 425 *);
  (u "GRMH", u "Aviation Height and VNAV data") (* 426 *);
  (u "GRMI", u "Set Sensor Initialisation Information") (* 427 *);
  (u "GRMM", u "MapDatum") (* 428 *);
  (u "GRMO", u "Set Output Sentence Enable") (* 429 *);
  (u "GRMT", u "Sensor Status Information") (* 430 *);
  (u "GRMV", u "3D Velocity Information") (* 431 *);
  (u "GRMW", u "Set Additional Waypoint Information") (* 432 *);
  (u "GRMZ", u "Altitude") (* 433 *);
  (u "KLDS", u "Position, Speed, Course") (* 437 *);
  (u "KLSH", u "FleetSync GNSS sentence") (* 438 *);
  (u "KNDS", u "Position, Speed, Course") (* 439 *);
  (u "KNSH", u "Position") (* 440 *);
  (u "KWDWPL", u "Waypoint Location") (* 441 *);
  (u "MGNWPL", u "Waypoint Location") (* 445 *);
  (u "AIR001", u "Ack") (* 449 *);
  (u "AIR002", u "GNSS Subsys Power On") (* 450 *);
  (u "AIR003", u "GNSS Subsys Power Off") (* 451 *);
  (u "AIR004", u "GNSS Subsys Hot Start") (* 452 *);
  (u "AIR005", u "GNSS Subsys Warm Start") (* 453 *);
  (u "AIR006", u "GNSS Subsys Cold Start") (* 454 *);
  (u "AIR007", u "GNSS Subsys Full Cold Start") (* 455 *);
  (u "AIR010", u "Request Aiding") (* 456 *);
  (u "AIR050", u "Common Set Fix Rate") (* 459 *);
  (u "AIR051", u "Common Get Fix Rate") (* 460 *);
  (u "AIR058", u "Common Set Min Snr") (* 461 *);
  (u "AIR059", u "Common Get Min Snr") (* 462 *);
  (u "AIR062", u "Common Set NMEA Output Rate") (* 463 *);
  (u "AIR063", u "Common Get NMEA Output Rate") (* 464 *);
  (u "AIR066", u "Common Set GNSS Search Mode") (* 465 *);
  (u "AIR067", u "Common Get GNSS Search Mode") (* 466 *);
  (u "AIR070", u "Common Set Static Threshold") (* 467 *);
  (u "AIR071", u "Common Get Static Threshold") (* 468 *);
  (u "AIR072", u "Common Set Elev Mask") (* 469 *);
  (u "AIR073", u "Common Get Elev Mask") (* 470 *);
  (u "AIR074", u "Common Set AIC Enable") (* 471 *);
  (u "AIR075", u "Common Get AIC Status") (* 472 *);
  (u "AIR080", u "Common Set Navigation Mode") (* 473 *);
  (u "AIR081", u "Common Get Navigation Mode") (* 474 *);
  (u "AIR086", u "Common Set Debuglog Output") (* 475 *);
  (u "AIR087", u "Common Get Debuglog Output") (* 476 *);
  (u "AIR100", u "Common Set Nmea Output Mode") (* 477 *);
  (u "AIR101", u "Common Get Nmea Output Mode") (* 478 *);
  (u "AIR104", u "Common Set Dual Band") (* 479 *);
  (u "AIR105", u "Common Get Dual Band") (* 480 *);
  (u "AIR382", u "Test Lock System Sleep") (* 483 *);
  (u "AIR391", u "Test Jamming Detect") (* 484 *);
  (u "AIR400", u "DGPS Set Mode") (* 485 *);
  (u "AIR401", u "DGPS Get Mode") (* 486 *);
  (u "AIR410", u "SBAS Enable") (* 487 *);
  (u "AIR411", u "SBAS Get Status") (* 488 *);
  (u "AIR420", u "SLAS Enable") (* 489 *);
  (u "AIR421", u "SLAS Get Status") (* 490 *);
  (u "AIR432", u "RTCM Set Output Mode") (* 491 *);
  (u "AIR433", u "RTCM Get Output Mode") (* 492 *);
  (u "AIR434", u "RTCM Set Output Ant Pnt") (* 493 *);
  (u "AIR435", u "RTCM Get Output Ant Pnt") (* 494 *);
  (u "AIR436", u "RTCM Set Output Ephemeris") (* 495 *);
  (u "AIR437", u "RTCM Get Output Ephemeris") (* 496 *);
  (u "AIR490", u "Set EASYTM status") (* 497 *);
  (u "AIR491", u "Get EASY status") (* 498 *);
  (u "AIR511", u "NVRAM Save Navigation Data") (* 504 *);
  (u "AIR512", u "NVRAM Clear Navigation Data") (* 505 *);
  (u "AIR513", u "NVRAM Save Setting") (* 506 *);
  (u "AIR6010", u "DR Set Custom Message Output") (* 507 *);
  (u "AIR6011", u "DR Get Custom Message Output") (* 508 *);
  (u "AIR650", u "Low Power Entry Rtc Mode") (* 509 *);
  (u "AIR752", u "PPS Set Config Cmd") (* 512 *);
  (u "AIR864", u "IO Set Baudrate") (* 517 *);
  (u "AIR865", u "IO Get Baudrate") (* 518 *);
  (u "AIR866", u "IO Set Flow Control") (* 519 *);
  (u "AIR867", u "IO Get Flow Control") (* 520 *);
  (u "AIRSPF", u "Jamming status L1") (* 521 *);
  (u "AIRSPF5", u "Jamming status L5") (* 522 *);
  (u "QTMANTENNASTATUS", u "Report Antenna Status") (* 526 *);
  (u "QTMBKP", u "Set Backup Mode") (* 527 *);
  (u "QTMCFGAIC", u "Sets/Gets AIC Function") (* 528 *);
  (u "QTMCFGANTDELTA", u "Sets/Gets Delta Between Ref Point and Antenna") (* 529 *);
  (u "QTMCFGANTINF", u "Sets/Gets Antenna Information") (* 530 *);
  (u "QTMCFGBLD", u "Sets/Gets Baseline Between Two Antennas") (* 531 *);
  (u "QTMCFGCNST", u "Sets/Gets Constellation Configuration") (* 532 *);
  (u "QTMCFGDR", u "Sets/Gets DR State") (* 533 *);
  (u "QTMCFGDRHOT", u "Sets/Gets DR Hot Start Feature") (* 534 *);
  (u "QTMCFGDRRTD", u "Sets/Gets DR Running TIme and Distance") (* 535 *);
  (u "QTMCFGEINSMSG", u "Sets/Gets INS, IMU, GPS Status") (* 536 *);
  (u "QTMCFGELETHD", u "Sets/Gets Elevation Threshold for Position Engine") (* 537 *);
  (u "QTMCFGFIXRATE", u "Sets/Gets Fix Interval") (* 538 *);
  (u "QTMCFGGEOFENCE", u "Sets/Gets Geofence Feature") (* 539 *);
  (u "QTMCFGGEOSEP", u "Sets/Gets Geoidal Separation") (* 540 *);
  (u "QTMCFGIMUINT", u "Sets/Gets Motion Trigger Interruption") (* 541 *);
  (u "QTMCFGIMUTC", u "Sets/Gets IMU Temperature Compensation") (* 542 *);
  (u "QTMCFGLA", u "Sets/Gets Lever Arm") (* 543 *);
  (u "QTMCFGLAM", u "Sets/Gets Lever Arm Mode") (* 544 *);
  (u "QTMCFGMSGRATE", u "Sets/Gets Message Output Rate") (* 545 *);
  (u "QTMCFGNAVMODE", u "Sets/Gets Navigation Mode") (* 546 *);
  (u "QTMCFGNMEADP", u "Sets/Gets NMEA Precision") (* 547 *);
  (u "QTMCFGNMEATID", u "Sets/Gets NMEA Talker ID") (* 548 *);
  (u "QTMCFGODO", u "Sets/Gets Odometer Feature") (* 549 *);
  (u "QTMCFGPPS", u "Sets/Gets PPS (Pulse Per Second) Feature") (* 550 *);
  (u "QTMCFGPROT", u "Sets/Gets I/O Protocol for Specified Port") (* 551 *);
  (u "QTMCFGRCVRMODE", u "Sets/Gets Receiver Working Mode") (* 552 *);
  (u "QTMCFGRSID", u "Sets/Gets Reference Station ID") (* 553 *);
  (u "QTMCFGRTCM", u "Sets/Gets RTCM") (* 554 *);
  (u "QTMCFGRTK", u "Sets/Gets RTK Mode") (* 555 *);
  (u "QTMCFGRTKSRCTYPE", u "Sets/Gets RTK Source Type") (* 556 *);
  (u "QTMMCFGRTKSRCTYPE", u "Sets/Gets RTK Source Type") (* 557 *);
  (u "QTMCFGSAT", u "Sets/Gets GNSS Satellite Mask") (* 558 *);
  (u "QTMCFGSBAS", u "Sets/Gets SBAS") (* 559 *);
  (u "QTMCFGSIGGRP", u "Sets/Gets GNSS Signal Group") (* 560 *);
  (u "QTMCFGSIGNAL", u "Sets/Gets Antenna1 Signal Mask") (* 561 *);
  (u "QTMCFGSIGNAL2", u "Sets/Gets Antenna2 Signal Mask") (* 562 *);
  (u "QTMCFGSTATICHOLD", u "Sets/Gets Parking Static Hold") (* 563 *);
  (u "QTMCFGSVIN", u "Sets/Gets Survey-In Feature") (* 564 *);
  (u "QTMCFGUART", u "Configure UART Interface") (* 565 *);
  (u "QTMCFGVEHMOT", u "Sets/Gets Vehicle Motion Detection") (* 566 *);
  (u "QTMCFGWN", u "Sets/Gets Reference Start Week No") (* 567 *);
  (u "QTMCOLD", u "Cold Start") (* 568 *);
  (u "QTMDEBUGOFF", u "Disable Debug Log Output") (* 569 *);
  (u "QTMDEBUGON", u "Enable Debug Log Output") (* 570 *);
  (u "QTMDOP", u "Outputs Dilution of Precision") (* 571 *);
  (u "QTMDRCAL", u "Dead Reckoning Calibration Status") (* 572 *);
  (u "QTMDRCLR", u "Clear DR Calibration Data") (* 573 *);
  (u "QTMDRPVA", u "DR Postion, Velosity and Attitude") (* 574 *);
  (u "QTMDRSAVE", u "Save DR Calibration Data") (* 575 *);
  (u "QTMEOE", u "Output End of Epoch Information") (* 576 *);
  (u "QTMEPE", u "Output Estimated Position Error") (* 577 *);
  (u "QTMGEOFENCESTATUS", u "Outputs Geofence Status") (* 578 *);
  (u "QTMGETUTC", u "Get UTC Time Information") (* 579 *);
  (u "QTMGNSSSTART", u "Starts GNSS Engine") (* 580 *);
  (u "QTMGNSSSTOP", u "Stops GNSS Engine") (* 581 *);
  (u "QTMGPS", u "Position Status in GNSS Mode") (* 582 *);
  (u "QTMHOT", u "Hot Start") (* 583 *);
  (u "QTMIMU", u "IMU Raw Data") (* 584 *);
  (u "QTMIMUTYPE", u "IMU Status") (* 585 *);
  (u "QTMINS", u "Navigation Results") (* 586 *);
  (u "QTMJAMMINGSTATUS", u "Jamming Detection Status") (* 587 *);
  (u "QTMLS", u "Outputs Leap Second Forecast Information") (* 588 *);
  (u "QTMNAV", u "Output Navigation Information") (* 589 *);
  (u "QTMODO", u "Outputs Odometer Information") (* 590 *);
  (u "QTMPL", u "Outputs Protection Level Information") (* 591 *);
  (u "QTMPVT", u "Outputs PVT (GNSS) Result") (* 592 *);
  (u "QTMQVER", u "Queries Version Information") (* 593 *);
  (u "QTMRESETODO", u "Reset Odometer Distance") (* 594 *);
  (u "QTMRESTOREPAR", u "Restore to Default Values after Restart") (* 595 *);
  (u "QTMSAVEPAR", u "Save Configuration to Non-Volatile Memory") (* 596 *);
  (u "QTMSENMSG", u "Sensor Information") (* 597 *);
  (u "QTMSN", u "Queries Module Serial Number Code") (* 598 *);
  (u "QTMSRR", u "System Reset and Reboot") (* 599 *);
  (u "QTMSTD", u "Outputs Time, Position, Velocoity and Attitude Deviations") (* 600 *);
  (u "QTMSVINSTATUS", u "Outputs Survey-In Status") (* 601 *);
  (u "QTMTAR", u "Output Time and Attitude") (* 602 *);
  (u "QTMTXT", u "Outputs Short Text Message") (* 603 *);
  (u "QTMUNIQID", u "Query Module Unique ID") (* 604 *);
  (u "QTMVEHATT", u "Output Vehicle Attitude") (* 605 *);
  (u "QTMVEHMOT", u "Output Vehicle Motion after DR Calibration") (* 606 *);
  (u "QTMVEHMSG", u "Output Vehicle Information") (* 607 *);
  (u "QTMVEL", u "Output Velocity Information") (* 608 *);
  (u "QTMVER", u "Firmware Version") (* 609 *);
  (u "QTMVERNO", u "Query Firmware Version") (* 610 *);
  (u "QTMWARM", u "Warm Start") (* 611 *);
  (u "STMCOLD", u "Perform cold start") (* 615 *);
  (u "STMCPU", u "Output CPU usage and speed") (* 616 *);
  (u "STMDR1", u "Report gyroscope and accelerometer details") (* 617 *);
  (u "STMDR2", u "Report calibration status and availability") (* 618 *);
  (u "STMDRBSD", u "Report IMU bias error estimates") (* 619 *);
  (u "STMDRCAL", u "Report IMU and odometer calibration status") (* 620 *);
  (u "STMDRCONFID", u "Report navigation and calibration error estimates") (* 621 *);
  (u "STMDRDEBUG", u "Report DR debug information") (* 622 *);
  (u "STMDREPE", u "Report DR horizontal position error estimates") (* 623 *);
  (u "STMDRGPS", u "Report GNSS information") (* 624 *);
  (u "STMDRMMFB", u "Set DR algorithm input data") (* 625 *);
  (u "STMDRMMFBKF", u "Report MMFB data timing, acceptance, and usage") (* 626 *);
  (u "STMDRPVA", u "Report PVT estimated by DR") (* 627 *);
  (u "STMDRPVASD", u "Report DR PVT error estimates") (* 628 *);
  (u "STMDRSENMSG", u "Output the IMU raw data") (* 629 *);
  (u "STMDRSINT", u "Report sensor integration samples") (* 630 *);
  (u "STMDRSTYPE", u "Report DR type") (* 631 *);
  (u "STMDRSVF", u "Report IMU vehicle dynamics") (* 632 *);
  (u "STMDRUPD", u "Quectel internal debugging") (* 633 *);
  (u "STMEPHEM", u "Load ephemeris into NVM") (* 634 *);
  (u "STMHOT", u "Perform hot start") (* 635 *);
  (u "STMIMUSELFTESTCMD", u "Execute IMU self-test") (* 636 *);
  (u "STMINITGPS", u "Initialise GPS") (* 637 *);
  (u "STMINITGPSERROR", u "Initialise GPS Nak") (* 638 *);
  (u "STMINITGPSOK", u "Initialise GPS Ack") (* 639 *);
  (u "STMINITTIME", u "Initialise time") (* 640 *);
  (u "STMINITTIMEERROR", u "Initialise time Nak") (* 641 *);
  (u "STMINITTIMEOK", u "Initialise time Ack") (* 642 *);
  (u "STMPPSDATA", u "Output the PPS data") (* 643 *);
  (u "STMRESTOREPAR", u "Restore the factory setting parameters") (* 644 *);
  (u "STMSAVEPAR", u "Save current configuration data block to NVM") (* 645 *);
  (u "STMSBAS", u "Output SBAS satellite data") (* 646 *);
  (u "STMSETPAR", u "Set parameter") (* 647 *);
  (u "STMSETPARERROR", u "Set parameter Nak") (* 648 *);
  (u "STMSETPAROK", u "Set parameter Ack") (* 649 *);
  (u "STMSRR", u "Execute system reset and reboot") (* 650 *);
  (u "STMTEMP", u "Report temperature") (* 651 *);
  (u "STMTG", u "Output time and satellite information") (* 652 *);
  (u "STMTS", u "Output tracked satellite parameters") (* 653 *);
  (u "STMWARM", u "Perform warm start") (* 654 *);
  (u "SSNHRP", u "Heading, Roll, Pitch") (* 658 *);
  (u "SSNRBD", u "Rover Base Direction") (* 659 *);
  (u "SSNRBP", u "Rover Base Position") (* 660 *);
  (u "SSNRBV", u "Rover Base Velocity") (* 661 *);
  (u "SSNSNC", u "NTRIP Client Status") (* 662 *);
  (u "SSNTFM", u "Used RTCM Coordinate Transformation Messages") (* 663 *);
  (u "UBX00", u "Lat/Long Position Data") (* 667 *);
  (u "UBX03", u "Satellite Status") (* 668 *);
  (u "UBX04", u "Time of Day and Clock Information") (* 669 *);
  (u "UBX05", u "Lat/Long Position Data") (* 670 *);
  (u "UBX06", u "Lat/Long Position Data") (* 671 *);
  (u "UBX40", u "Set NMEA Message Output Rate") (* 672 *);
  (u "UBX41", u "Set Protocols and Baudrate") (* 673 *);
  (u "ASHR", u "RT300 Roll and Pitch") (* 677 *);
  (u "ASHRALR", u "Alarms") (* 678 *);
  (u "ASHRARA", u "True Heading") (* 679 *);
  (u "ASHRARR", u "Vector & Accuracy") (* 680 *);
  (u "ASHRATT", u "True Heading") (* 681 *);
  (u "ASHRBTS", u "Bluetooth Status") (* 682 *);
  (u "ASHRCAP", u "Parameters of Antenna Used at Received Base") (* 683 *);
  (u "ASHRCPA", u "Height of Antenna Used at Received Base") (* 684 *);
  (u "ASHRCPO", u "Position of Received Base") (* 685 *);
  (u "ASHRDDM", u "Differential Decoder Message") (* 686 *);
  (u "ASHRDDS", u "Differential Decoder Status") (* 687 *);
  (u "ASHRHPR", u "True Heading") (* 688 *);
  (u "ASHRLTN", u "Latency") (* 690 *);
  (u "ASHRMDM", u "Modem State and Parameter") (* 691 *);
  (u "ASHRPOS", u "Position") (* 692 *);
  (u "ASHRPBN", u "Position and Velocity Information") (* 693 *);
  (u "ASHRPTT", u "PPS Time Tag") (* 694 *);
  (u "ASHRPWR", u "Power Status") (* 695 *);
  (u "ASHRRCS", u "Recording Status") (* 696 *);
  (u "ASHRSBD", u "BEIDOU Satellites Status") (* 697 *);
  (u "ASHRSGA", u "GALILEO Satellites Status (E1,E5a,E5b)") (* 698 *);
  (u "ASHRSGL", u "GLONASS Satellites Status") (* 699 *);
  (u "ASHRSGO", u "GALILEO Satellites Status (E1,E5a,E5b,E6)") (* 700 *);
  (u "ASHRSGP", u "GPS Satellites Status") (* 701 *);
  (u "ASHRSIR", u "IRNSS Satellites Status") (* 702 *);
  (u "ASHRSLB", u "L-Band Satellites Status") (* 703 *);
  (u "ASHRSQZ", u "QZSS Satellites Status") (* 704 *);
  (u "ASHRSSB", u "SBAS Satellites Status") (* 705 *);
  (u "ASHRTEM", u "Receiver Temperature") (* 706 *);
  (u "ASHRTHS", u "True Heading and Status") (* 707 *);
  (u "ASHRTTT", u "Event Marker") (* 708 *);
  (u "ASHRVCR", u "Vector and Accuracy") (* 709 *);
  (u "ASHRVCT", u "Vector and Accuracy") (* 710 *);
  (u "ASHRVEL", u "Velocity") (* 711 *);
  (u "FUGDP", u "Fugro Dynamic Positioning") (* 712 *);
  (u "GPPADV110", u "Position and satellite information for RTK network operations 110") (* 713 *);
  (u "GPPADV120", u "Position and satellite information for RTK network operations 120") (* 714 *);
  (u "TNLAVR", u "Time, yaw, tilt/roll, range for moving baseline RTK") (* 715 *);
  (u "TNLBPQ", u "Base station position and quality indicator") (* 716 *);
  (u "TNLDG", u "L-band corrections and beacon signal strength and related information") (* 717 *);
  (u "TNLEVT", u "Event marker data") (* 718 *);
  (u "TNLGGK", u "Time, position, position type, DOP") (* 719 *);
  (u "TNLGGKx", u "GNSS Position Message") (* 720 *);
  (u "TNLPJK", u "Local coordinate position output") (* 721 *);
  (u "TNLPJT", u "Projection type") (* 722 *);
  (u "TNLREX", u "Rover Extended Output") (* 723 *);
  (u "TNLVGK", u "Vector information") (* 724 *);
  (u "TNLVHD", u "Heading information") (* 725 *);
  (u "FECGPATT", u "Attitude yaw, pitch, roll") (* 729 *);
  (u "FECGPHVE", u "Heave") (* 730 *);
  (u "INVCRES", u "Clear the NVM data") (* 734 *);
  (u "INVCSTR", u "Start session") (* 735 *);
  (u "INVMATTIT", u "ATTIT information") (* 736 *);
  (u "INVMIMU", u "MEMS RAW-DATA message information") (* 737 *);
  (u "INVMINR", u "Calibration status") (* 738 *);
  (u "INVMSTR", u "Session Status") (* 739 *);
  (u "INVMSLOPE", u "SLOPE information") (* 740 *);
  (u "LSC", u "Set status/poll version") (* 741 *);
  (u "LSR", u "Set status response") (* 742 *);
  (u "LSVD", u "Attitude yaw, pitch, roll") (* 743 *)
].

(* nmeatypes_core.py:754 NMEA_PREFIX_PROP *)
Definition NMEA_PREFIX_PROP : list pystr := [u "ASHR"; u "GPPADV"; u "FEC"; u "SSN"; u "TNL"; u "UBX"].

(* nmeatypes_get.py:38 *)
Definition def_g_AAM : pdict :=
    [(u "arrce", ASingle (u "CH"));
     (u "perp", ASingle (u "CH"));
     (u "crad", ASingle (u "DE"));
     (u "cUnit", ASingle (u "CH"));
     (u "wpt", ASingle (u "ST"))].

(* nmeatypes_get.py:45 *)
Definition def_g_ABK : pdict :=
    [(u "mmsi", ASingle (u "ST"));
     (u "aischan", ASingle (u "CH"));
     (u "itumsg", ASingle (u "ST"));
     (u "msgSeq", ASingle (u "IN"));
     (u "ackType", ASingle (u "IN"))].

(* nmeatypes_get.py:52 *)
Definition def_g_ABM : pdict :=
    [(u "numSen", ASingle (u "IN"));
     (u "senNum", ASingle (u "IN"));
     (u "mmsi", ASingle (u "ST"));
     (u "aischan", ASingle (u "CH"));
     (u "ituMsg", ASingle (u "ST"));
     (u "data", ASingle (u "ST"));
     (u "fillbits", ASingle (u "IN"))].

(* nmeatypes_get.py:61 *)
Definition def_g_ACA : pdict :=
    [(u "seqNum", ASingle (u "IN"));
     (u "latne", ASingle (u "LA"));
     (u "latneNS", ASingle (u "LAD"));
     (u "lonne", ASingle (u "LN"));
     (u "lonneEW", ASingle (u "LND"));
     (u "latsw", ASingle (u "LA"));
     (u "latswNS", ASingle (u "LAD"));
     (u "lonswq", ASingle (u "LN"));
     (u "lonswEW", ASingle (u "LND"));
     (u "tranZoneSize", ASingle (u "CH"));
     (u "chanA", ASingle (u "CH"));
     (u "chanAbw", ASingle (u "CH"));
     (u "chanB", ASingle (u "CH"));
     (u "chanBbw", ASingle (u "CH"));
     (u "txrxMode", ASingle (u "IN"));
     (u "pwrLevelCtl", ASingle (u "IN"));
     (u "infoSource", ASingle (u "CH"));
     (u "inuse", ASingle (u "IN"));
     (u "inuseTime", ASingle (u "TM"))].

(* nmeatypes_get.py:82 *)
Definition def_g_ACK : pdict :=
    [(u "alarmid", ASingle (u "ST"))].

(* nmeatypes_get.py:85 *)
Definition def_g_ACN : pdict :=
    [(u "time", ASingle (u "TM"));
     (u "mfrcode", ASingle (u "ST"));
     (u "alertid", ASingle (u "ST"));
     (u "alertnum", ASingle (u "IN"));
     (u "alertcmd", ASingle (u "ST"));
     (u "status", ASingle (u "CH"))].

(* nmeatypes_get.py:93 *)
Definition def_g_ACS : pdict :=
    [(u "seqNum", ASingle (u "IN"));
     (u "mmsi", ASingle (u "ST"));
     (u "utc", ASingle (u "TM"));
     (u "day", ASingle (u "IN"));
     (u "month", ASingle (u "IN"));
     (u "year", ASingle (u "IN"))].

(* nmeatypes_get.py:101 *)
Definition def_g_AIR : pdict :=
    [(u "mmsi1", ASingle (u "ST"));
     (u "mmsi1msg1", ASingle (u "ST"));
     (u "mmsi1msg1sub", ASingle (u "ST"));
     (u "mmsi1msg2", ASingle (u "ST"));
     (u "mmsi1msg2sub", ASingle (u "CH"));
     (u "mmsi2", ASingle (u "ST"));
     (u "mmsi2msg1", ASingle (u "ST"));
     (u "mmsi2msg1sub", ASingle (u "ST"));
     (u "channel", ASingle (u "ST"));
     (u "mid11", ASingle (u "ST"));
     (u "mid12", ASingle (u "ST"));
     (u "mid21", ASingle (u "ST"))].

(* nmeatypes_get.py:115 *)
Definition def_g_AKD : pdict :=
    [(u "acktime", ASingle (u "TM"));
     (u "srcsystem", ASingle (u "ST"));
     (u "srcsubsysytem", ASingle (u "ST"));
     (u "srcinstance", ASingle (u "ST"));
     (u "alarmtype", ASingle (u "ST"));
     (u "acksystem", ASingle (u "ST"));
     (u "acksubsystem", ASingle (u "ST"));
     (u "ackinstance", ASingle (u "ST"))].

(* nmeatypes_get.py:125 *)
Definition def_g_ALA : pdict :=
    [(u "evttime", ASingle (u "TM"));
     (u "srcsystem", ASingle (u "ST"));
     (u "srcsubsysytem", ASingle (u "ST"));
     (u "srcinstance", ASingle (u "ST"));
     (u "alarmtype", ASingle (u "ST"));
     (u "alarmcond", ASingle (u "ST"));
     (u "alarmackstate", ASingle (u "ST"));
     (u "alarmtext", ASingle (u "ST"))].

(* nmeatypes_get.py:135 *)
Definition def_g_ALC : pdict :=
    [(u "numSen", ASingle (u "IN"));
     (u "senNum", ASingle (u "IN"));
     (u "seqmid", ASingle (u "IN"));
     (u "numAlerts", ASingle (u "IN"));
     (u "alertgroup", AGroup (NStr (u "numAlerts")) [(u "mfrcode", ASingle (u "ST"));
     (u "alertid", ASingle (u "ST"));
     (u "revisionctr", ASingle (u "ST"))])].

(* nmeatypes_get.py:149 *)
Definition def_g_ALF : pdict :=
    [(u "numSen", ASingle (u "IN"));
     (u "senNum", ASingle (u "IN"));
     (u "seqmid", ASingle (u "IN"));
     (u "timelastchange", ASingle (u "TM"));
     (u "alertcat", ASingle (u "CH"));
     (u "alertpriority", ASingle (u "CH"));
     (u "alertstate", ASingle (u "CH"));
     (u "mfrcode", ASingle (u "ST"));
     (u "alertid", ASingle (u "ST"));
     (u "alertinst", ASingle (u "ST"));
     (u "revisionctr", ASingle (u "ST"));
     (u "escalationctr", ASingle (u "ST"));
     (u "alerttxt", ASingle (u "ST"))].

(* nmeatypes_get.py:164 *)
Definition def_g_ALR : pdict :=
    [(u "timealarmchange", ASingle (u "TM"));
     (u "alarmnum", ASingle (u "ST"));
     (u "alarmcond", ASingle (u "ST"));
     (u "alarmstate", ASingle (u "ST"));
     (u "alarmtext", ASingle (u "ST"))].

(* nmeatypes_get.py:171 *)
Definition def_g_APA : pdict :=
    [(u "LCgwarn", ASingle (u "CH"));
     (u "LCcwarn", ASingle (u "CH"));
     (u "ctrkerr", ASingle (u "DE"));
     (u "dirs", ASingle (u "CH"));
     (u "ctrkUnit", ASingle (u "CH"));
     (u "aalmcirc", ASingle (u "CH"));
     (u "aalmperp", ASingle (u "CH"));
     (u "bearP2D", ASingle (u "DE"));
     (u "bearP2Du", ASingle (u "CH"));
     (u "wpt", ASingle (u "ST"))].

(* nmeatypes_get.py:183 *)
Definition def_g_APB : pdict :=
    [(u "LCgwarn", ASingle (u "CH"));
     (u "LCcwarn", ASingle (u "CH"));
     (u "ctrkerr", ASingle (u "DE"));
     (u "dirs", ASingle (u "CH"));
     (u "ctrkUnit", ASingle (u "CH"));
     (u "aalmcirc", ASingle (u "CH"));
     (u "aalmperp", ASingle (u "CH"));
     (u "bearO2D", ASingle (u "DE"));
     (u "bearO2Du", ASingle (u "CH"));
     (u "wpt", ASingle (u "ST"));
     (u "bearD", ASingle (u "DE"));
     (u "bearDu", ASingle (u "CH"));
     (u "bearS", ASingle (u "DE"));
     (u "bearSu", ASingle (u "CH"));
     (u "mode", ASingle (u "CH"))].

(* nmeatypes_get.py:200 *)
Definition def_g_ARC : pdict :=
    [(u "time", ASingle (u "TM"));
     (u "mfrcode", ASingle (u "ST"));
     (u "alertid", ASingle (u "ST"));
     (u "alertinst", ASingle (u "IN"));
     (u "alertcmd", ASingle (u "ST"))].

(* nmeatypes_get.py:207 *)
Definition def_g_BBM : pdict :=
    [(u "numSen", ASingle (u "IN"));
     (u "senNum", ASingle (u "IN"));
     (u "seqmid", ASingle (u "IN"));
     (u "aischan", ASingle (u "CH"));
     (u "itumsg", ASingle (u "ST"));
     (u "data", ASingle (u "ST"));
     (u "fillbits", ASingle (u "IN"))].

(* nmeatypes_get.py:216 *)
Definition def_g_BEC : pdict :=
    [(u "utc", ASingle (u "TM"));
     (u "wptlat", ASingle (u "LA"));
     (u "wptNS", ASingle (u "LAD"));
     (u "wptlon", ASingle (u "LN"));
     (u "wptEW", ASingle (u "LND"));
     (u "bearT", ASingle (u "DE"));
     (u "bearTu", ASingle (u "CH"));
     (u "bearM", ASingle (u "DE"));
     (u "bearMu", ASingle (u "CH"));
     (u "dist", ASingle (u "DE"));
     (u "distu", ASingle (u "CH"));
     (u "wpt", ASingle (u "ST"))].

(* nmeatypes_get.py:230 *)
Definition def_g_BOD : pdict :=
    [(u "bearT", ASingle (u "DE"));
     (u "bearTu", ASingle (u "CH"));
     (u "bearM", ASingle (u "DE"));
     (u "bearMu", ASingle (u "CH"));
     (u "wptD", ASingle (u "ST"));
     (u "wptO", ASingle (u "ST"))].

(* nmeatypes_get.py:238 *)
Definition def_g_BWC : pdict :=
    [(u "fixutc", ASingle (u "TM"));
     (u "lat", ASingle (u "LA"));
     (u "NS", ASingle (u "LAD"));
     (u "lon", ASingle (u "LN"));
     (u "EW", ASingle (u "LND"));
     (u "bearT", ASingle (u "DE"));
     (u "bearTu", ASingle (u "CH"));
     (u "bearM", ASingle (u "DE"));
     (u "bearMu", ASingle (u "CH"));
     (u "dist", ASingle (u "DE"));
     (u "distUnit", ASingle (u "CH"));
     (u "wpt", ASingle (u "ST"));
     (u "mode", ASingle (u "CH"))].

(* nmeatypes_get.py:253 *)
Definition def_g_BWR : pdict :=
    [(u "fixutc", ASingle (u "TM"));
     (u "lat", ASingle (u "LA"));
     (u "NS", ASingle (u "LAD"));
     (u "lon", ASingle (u "LN"));
     (u "EW", ASingle (u "LND"));
     (u "bearT", ASingle (u "DE"));
     (u "bearTu", ASingle (u "CH"));
     (u "bearM", ASingle (u "DE"));
     (u "bearMu", ASingle (u "CH"));
     (u "dist", ASingle (u "DE"));
     (u "distUnit", ASingle (u "CH"));
     (u "wpt", ASingle (u "ST"));
     (u "mode", ASingle (u "CH"))].

(* nmeatypes_get.py:268 *)
Definition def_g_BWW : pdict :=
    [(u "bearT", ASingle (u "DE"));
     (u "bearTu", ASingle (u "CH"));
     (u "bearM", ASingle (u "DE"));
     (u "bearMu", ASingle (u "CH"));
     (u "wptto", ASingle (u "ST"));
     (u "wptfrom", ASingle (u "ST"))].

(* nmeatypes_get.py:276 *)
Definition def_g_CUR : pdict :=
    [(u "valid", ASingle (u "CH"));
     (u "datasetnum", ASingle (u "IN"));
     (u "layernum", ASingle (u "IN"));
     (u "depth", ASingle (u "DE"));
     (u "direction", ASingle (u "DE"));
     (u "dirTR", ASingle (u "CH"));
     (u "speed", ASingle (u "DE"));
     (u "refdepth", ASingle (u "DE"));
     (u "heading", ASingle (u "DE"));
     (u "headingTM", ASingle (u "CH"));
     (u "speedref", ASingle (u "CH"))].

(* nmeatypes_get.py:289 *)
Definition def_g_DBT : pdict :=
    [(u "depthf", ASingle (u "DE"));
     (u "depthfu", ASingle (u "CH"));
     (u "depthm", ASingle (u "DE"));
     (u "depthmu", ASingle (u "CH"));
     (u "depthfath", ASingle (u "DE"));
     (u "depthfathu", ASingle (u "CH"))].

(* nmeatypes_get.py:297 *)
Definition def_g_DDC : pdict :=
    [(u "preset", ASingle (u "CH"));
     (u "brightness", ASingle (u "IN"));
     (u "palette", ASingle (u "CH"));
     (u "status", ASingle (u "CH"))].

(* nmeatypes_get.py:303 *)
Definition def_g_DOR : pdict :=
    [(u "msgtype", ASingle (u "CH"));
     (u "time", ASingle (u "TM"));
     (u "doormontype", ASingle (u "ST"));
     (u "div1ind", ASingle (u "ST"));
     (u "div2ind", ASingle (u "ST"));
     (u "doorcount", ASingle (u "IN"));
     (u "doorstatus", ASingle (u "CH"));
     (u "watertightdoorsetting", ASingle (u "CH"));
     (u "msgtext", ASingle (u "ST"))].

(* nmeatypes_get.py:314 *)
Definition def_g_DPT : pdict :=
    [(u "depth", ASingle (u "DE"));
     (u "offset", ASingle (u "DE"));
     (u "rangescale", ASingle (u "DE"))].

(* nmeatypes_get.py:319 *)
Definition def_g_DSC : pdict :=
    [(u "format", ASingle (u "ST"));
     (u "address", ASingle (u "ST"));
     (u "category", ASingle (u "ST"));
     (u "distresstype", ASingle (u "ST"));
     (u "commtype", ASingle (u "ST"));
     (u "channel", ASingle (u "ST"));
     (u "timetelno", ASingle (u "ST"));
     (u "mmsi", ASingle (u "ST"));
     (u "distressnature", ASingle (u "ST"));
     (u "acknowledgement", ASingle (u "CH"));
     (u "expansionind", ASingle (u "CH"))].

(* nmeatypes_get.py:332 *)
Definition def_g_DSE : pdict :=
    [(u "numSen", ASingle (u "IN"));
     (u "senNum", ASingle (u "IN"));
     (u "queryflag", ASingle (u "CH"));
     (u "mmsi", ASingle (u "ST"));
     (u "datagroup", AGroup (NStr (u "None")) [(u "code", ASingle (u "ST"));
     (u "data", ASingle (u "ST"))])].

(* nmeatypes_get.py:345 *)
Definition def_g_DTM : pdict :=
    [(u "datum", ASingle (u "ST"));
     (u "subDatum", ASingle (u "ST"));
     (u "latOfset", ASingle (u "DE"));
     (u "NS", ASingle (u "LAD"));
     (u "lonOfset", ASingle (u "DE"));
     (u "EW", ASingle (u "LND"));
     (u "alt", ASingle (u "DE"));
     (u "refDatum", ASingle (u "ST"))].

(* nmeatypes_get.py:355 *)
Definition def_g_EPV : pdict :=
    [(u "status", ASingle (u "CH"));
     (u "equipmenttype", ASingle (u "ST"));
     (u "equipmentid", ASingle (u "ST"));
     (u "propertyid", ASingle (u "ST"));
     (u "value", ASingle (u "ST"))].

(* nmeatypes_get.py:362 *)
Definition def_g_ETL : pdict :=
    [(u "time", ASingle (u "TM"));
     (u "msgtype", ASingle (u "CH"));
     (u "engtelposind", ASingle (u "ST"));
     (u "engsubtelposind", ASingle (u "ST"));
     (u "operatinglocind", ASingle (u "CH"));
     (u "enginenum", ASingle (u "CH"))].

(* nmeatypes_get.py:370 *)
Definition def_g_EVE : pdict :=
    [(u "time", ASingle (u "TM"));
     (u "tagcode", ASingle (u "ST"));
     (u "eventtext", ASingle (u "ST"))].

(* nmeatypes_get.py:375 *)
Definition def_g_FIR : pdict :=
    [(u "msgtype", ASingle (u "CH"));
     (u "time", ASingle (u "TM"));
     (u "fdstype", ASingle (u "ST"));
     (u "div1ind", ASingle (u "ST"));
     (u "div2ind", ASingle (u "ST"));
     (u "fdsnum", ASingle (u "ST"));
     (u "condition", ASingle (u "CH"));
     (u "alarmackstate", ASingle (u "CH"));
     (u "text", ASingle (u "ST"))].

(* nmeatypes_get.py:387 *)
Definition def_g_FMI : pdict :=
    [(u "time", ASingle (u "TM"));
     (u "lat", ASingle (u "DE"));
     (u "lon", ASingle (u "DE"));
     (u "alt", ASingle (u "DE"));
     (u "roll", ASingle (u "DE"));
     (u "pitch", ASingle (u "DE"));
     (u "yaw", ASingle (u "DE"));
     (u "hrms", ASingle (u "DE"));
     (u "numSV", ASingle (u "IN"));
     (u "diffAge", ASingle (u "IN"));
     (u "navmod", ASingle (u "IN"));
     (u "status", ASingle (u "HX"))].

(* nmeatypes_get.py:401 *)
Definition def_g_FSI : pdict :=
    [(u "txfreq", ASingle (u "ST"));
     (u "rxfreq", ASingle (u "ST"));
     (u "opmode", ASingle (u "ST"));
     (u "power", ASingle (u "IN"));
     (u "status", ASingle (u "CH"))].

(* nmeatypes_get.py:408 *)
Definition def_g_GBS : pdict :=
    [(u "time", ASingle (u "TM"));
     (u "errLat", ASingle (u "DE"));
     (u "errLon", ASingle (u "DE"));
     (u "errAlt", ASingle (u "DE"));
     (u "svid", ASingle (u "IN"));
     (u "prob", ASingle (u "DE"));
     (u "bias", ASingle (u "DE"));
     (u "stddev", ASingle (u "DE"));
     (u "systemId", ASingle (u "HX"));
     (u "signalId", ASingle (u "HX"))].

(* nmeatypes_get.py:420 *)
Definition def_g_GEN : pdict :=
    [(u "index", ASingle (u "HX"));
     (u "time", ASingle (u "TM"));
     (u "group", AGroup (NStr (u "None")) [(u "data", ASingle (u "HX"))])].

(* nmeatypes_get.py:425 *)
Definition def_g_GFA : pdict :=
    [(u "time", ASingle (u "TM"));
     (u "hprotlvl", ASingle (u "DE"));
     (u "vprotlvl", ASingle (u "DE"));
     (u "semimajstddev", ASingle (u "DE"));
     (u "semiminstddev", ASingle (u "DE"));
     (u "semimajorientation", ASingle (u "DE"));
     (u "altstddev", ASingle (u "DE"));
     (u "accuracy", ASingle (u "DE"));
     (u "integrity", ASingle (u "ST"))].

(* nmeatypes_get.py:436 *)
Definition def_g_GGA : pdict :=
    [(u "time", ASingle (u "TM"));
     (u "lat", ASingle (u "LA"));
     (u "NS", ASingle (u "LAD"));
     (u "lon", ASingle (u "LN"));
     (u "EW", ASingle (u "LND"));
     (u "quality", ASingle (u "IN"));
     (u "numSV", ASingle (u "IN"));
     (u "HDOP", ASingle (u "DE"));
     (u "alt", ASingle (u "DE"));
     (u "altUnit", ASingle (u "CH"));
     (u "sep", ASingle (u "DE"));
     (u "sepUnit", ASingle (u "CH"));
     (u "diffAge", ASingle (u "DE"));
     (u "diffStation", ASingle (u "IN"))].

(* nmeatypes_get.py:452 *)
Definition def_g_GLL : pdict :=
    [(u "lat", ASingle (u "LA"));
     (u "NS", ASingle (u "LAD"));
     (u "lon", ASingle (u "LN"));
     (u "EW", ASingle (u "LND"));
     (u "time", ASingle (u "TM"));
     (u "status", ASingle (u "ST"));
     (u "posMode", ASingle (u "ST"))].

(* nmeatypes_get.py:461 *)
Definition def_g_GMP : pdict :=
    [(u "utctime", ASingle (u "TM"));
     (u "mapProjection", ASingle (u "ST"));
     (u "mapZone", ASingle (u "ST"));
     (u "gridN", ASingle (u "DE"));
     (u "gridE", ASingle (u "DE"));
     (u "modeInd", ASingle (u "CH"));
     (u "sip", ASingle (u "IN"));
     (u "HDOP", ASingle (u "DE"));
     (u "alt", ASingle (u "DE"));
     (u "geoidSep", ASingle (u "DE"));
     (u "corrAge", ASingle (u "DE"));
     (u "baseId", ASingle (u "ST"))].

(* nmeatypes_get.py:475 *)
Definition def_g_GNS : pdict :=
    [(u "time", ASingle (u "TM"));
     (u "lat", ASingle (u "LA"));
     (u "NS", ASingle (u "LAD"));
     (u "lon", ASingle (u "LN"));
     (u "EW", ASingle (u "LND"));
     (u "posMode", ASingle (u "ST"));
     (u "numSV", ASingle (u "IN"));
     (u "HDOP", ASingle (u "DE"));
     (u "alt", ASingle (u "DE"));
     (u "sep", ASingle (u "DE"));
     (u "diffAge", ASingle (u "DE"));
     (u "diffStation", ASingle (u "IN"));
     (u "navStatus", ASingle (u "CH"))].

(* nmeatypes_get.py:490 *)
Definition def_g_GRS : pdict :=
    [(u "time", ASingle (u "TM"));
     (u "mode", ASingle (u "IN"));
     (u "groupSV", AGroup (NInt (12)) [(u "residual", ASingle (u "DE"))]);
     (u "systemId", ASingle (u "HX"));
     (u "signalId", ASingle (u "HX"))].

(* nmeatypes_get.py:502 *)
Definition def_g_GSA : pdict :=
    [(u "opMode", ASingle (u "CH"));
     (u "navMode", ASingle (u "IN"));
     (u "groupSV", AGroup (NInt (12)) [(u "svid", ASingle (u "IN"))]);
     (u "PDOP", ASingle (u "DE"));
     (u "HDOP", ASingle (u "DE"));
     (u "VDOP", ASingle (u "DE"));
     (u "systemId", ASingle (u "HX"))].

(* nmeatypes_get.py:516 *)
Definition def_g_GST : pdict :=
    [(u "time", ASingle (u "TM"));
     (u "rangeRms", ASingle (u "DE"));
     (u "stdMajor", ASingle (u "DE"));
     (u "stdMinor", ASingle (u "DE"));
     (u "orient", ASingle (u "DE"));
     (u "stdLat", ASingle (u "DE"));
     (u "stdLong", ASingle (u "DE"));
     (u "stdAlt", ASingle (u "DE"))].

(* nmeatypes_get.py:526 *)
Definition def_g_GSV : pdict :=
    [(u "numMsg", ASingle (u "IN"));
     (u "msgNum", ASingle (u "IN"));
     (u "numSV", ASingle (u "IN"));
     (u "group_sv", AGroup (NStr (u "None")) [(u "svid", ASingle (u "IN"));
     (u "elv", ASingle (u "IN"));
     (u "az", ASingle (u "IN"));
     (u "cno", ASingle (u "IN"))]);
     (u "signalID", ASingle (u "HX"))].

(* nmeatypes_get.py:541 *)
Definition def_g_HBT : pdict :=
    [(u "repeatint", ASingle (u "DE"));
     (u "status", ASingle (u "CH"));
     (u "seqid", ASingle (u "IN"))].

(* nmeatypes_get.py:546 *)
Definition def_g_HCR : pdict :=
    [(u "headingt", ASingle (u "DE"));
     (u "mode", ASingle (u "CH"));
     (u "corrstate", ASingle (u "CH"));
     (u "corrvalue", ASingle (u "DE"))].

(* nmeatypes_get.py:552 *)
Definition def_g_HDG : pdict :=
    [(u "headingM", ASingle (u "DE"));
     (u "deviation", ASingle (u "DE"));
     (u "deviationEW", ASingle (u "LND"));
     (u "variation", ASingle (u "DE"));
     (u "variationEW", ASingle (u "LND"))].

(* nmeatypes_get.py:559 *)
Definition def_g_HDM : pdict :=
    [(u "headingM", ASingle (u "DE"));
     (u "headingMag", ASingle (u "CH"))].

(* nmeatypes_get.py:563 *)
Definition def_g_HDT : pdict :=
    [(u "headingT", ASingle (u "DE"));
     (u "headingTu", ASingle (u "CH"))].

(* nmeatypes_get.py:567 *)
Definition def_g_HMR : pdict :=
    [(u "sensor1id", ASingle (u "ST"));
     (u "sensor2id", ASingle (u "ST"));
     (u "setdiff", ASingle (u "DE"));
     (u "actualdiff", ASingle (u "DE"));
     (u "warning", ASingle (u "CH"));
     (u "sensor1hdg", ASingle (u "DE"));
     (u "sensor1status", ASingle (u "CH"));
     (u "sensor1u", ASingle (u "CH"));
     (u "sensor1dev", ASingle (u "DE"));
     (u "sensor1EW", ASingle (u "LND"));
     (u "sensor2hdg", ASingle (u "DE"));
     (u "sensor2status", ASingle (u "CH"));
     (u "sensor2u", ASingle (u "CH"));
     (u "sensor2dev", ASingle (u "DE"));
     (u "sensor2EW", ASingle (u "LND"));
     (u "variation", ASingle (u "DE"));
     (u "variationEW", ASingle (u "LND"))].

(* nmeatypes_get.py:586 *)
Definition def_g_HMS : pdict :=
    [(u "sensor1id", ASingle (u "ST"));
     (u "sensor2id", ASingle (u "ST"));
     (u "setdiff", ASingle (u "DE"))].

(* nmeatypes_get.py:591 *)
Definition def_g_HRM : pdict :=
    [(u "heel", ASingle (u "DE"));
     (u "rollperiod", ASingle (u "DE"));
     (u "rollamplitudeport", ASingle (u "DE"));
     (u "rollamplitduestbd", ASingle (u "DE"));
     (u "status", ASingle (u "CH"));
     (u "rollpeakport", ASingle (u "DE"));
     (u "rollpeakstbd", ASingle (u "DE"));
     (u "peakholdresettime", ASingle (u "TM"));
     (u "peakholdresetdat", ASingle (u "IN"));
     (u "peakholdresetmonth", ASingle (u "IN"))].

(* nmeatypes_get.py:603 *)
Definition def_g_HSC : pdict :=
    [(u "cmdheadingT", ASingle (u "DE"));
     (u "cmdheadingTu", ASingle (u "CH"));
     (u "cmdheadingM", ASingle (u "DE"));
     (u "cmdheadingMu", ASingle (u "CH"));
     (u "status", ASingle (u "CH"))].

(* nmeatypes_get.py:610 *)
Definition def_g_HSS : pdict :=
    [(u "measpointid", ASingle (u "ST"));
     (u "value", ASingle (u "DE"));
     (u "status", ASingle (u "CH"))].

(* nmeatypes_get.py:615 *)
Definition def_g_HTC : pdict :=
    [(u "override", ASingle (u "CH"));
     (u "cmdrudderang", ASingle (u "DE"));
     (u "cmdrudderdir", ASingle (u "CH"));
     (u "steermode", ASingle (u "CH"));
     (u "turnmode", ASingle (u "CH"));
     (u "cmdrudderlimit", ASingle (u "DE"));
     (u "cmdoffheadinglimit", ASingle (u "DE"));
     (u "cmdturnradius", ASingle (u "DE"));
     (u "cmdturnrate", ASingle (u "DE"));
     (u "cmdheading", ASingle (u "DE"));
     (u "cmdofftracklimit", ASingle (u "DE"));
     (u "cmdtrack", ASingle (u "DE"));
     (u "headingref", ASingle (u "CH"));
     (u "status", ASingle (u "CH"))].

(* nmeatypes_get.py:631 *)
Definition def_g_HTD : pdict :=
    [(u "override", ASingle (u "CH"));
     (u "cmdrudderang", ASingle (u "DE"));
     (u "cmdrudderdir", ASingle (u "CH"));
     (u "steermode", ASingle (u "CH"));
     (u "turnmode", ASingle (u "CH"));
     (u "cmdrudderlimit", ASingle (u "DE"));
     (u "cmdoffheadinglimit", ASingle (u "DE"));
     (u "cmdturnradius", ASingle (u "DE"));
     (u "cmdturnrate", ASingle (u "DE"));
     (u "cmdheading", ASingle (u "DE"));
     (u "cmdofftracklimit", ASingle (u "DE"));
     (u "cmdtrack", ASingle (u "DE"));
     (u "headingref", ASingle (u "CH"));
     (u "rudderstatus", ASingle (u "CH"));
     (u "offheadingstatus", ASingle (u "CH"));
     (u "offtrackstatus", ASingle (u "CH"));
     (u "vesselheading", ASingle (u "DE"))].

(* nmeatypes_get.py:650 *)
Definition def_g_LR1 : pdict :=
    [(u "seqNum", ASingle (u "IN"));
     (u "mmsiresponder", ASingle (u "ST"));
     (u "mmsirequester", ASingle (u "ST"));
     (u "shipname", ASingle (u "ST"));
     (u "callsign", ASingle (u "ST"));
     (u "imonum", ASingle (u "ST"))].

(* nmeatypes_get.py:658 *)
Definition def_g_LR2 : pdict :=
    [(u "seqNum", ASingle (u "IN"));
     (u "mmsiresponder", ASingle (u "ST"));
     (u "date", ASingle (u "DTL"));
     (u "time", ASingle (u "TM"));
     (u "lat", ASingle (u "LA"));
     (u "NS", ASingle (u "LAD"));
     (u "lon", ASingle (u "LN"));
     (u "EW", ASingle (u "LND"));
     (u "cog", ASingle (u "DE"));
     (u "cogT", ASingle (u "CH"));
     (u "sog", ASingle (u "DE"));
     (u "sogu", ASingle (u "CH"))].

(* nmeatypes_get.py:672 *)
Definition def_g_LR3 : pdict :=
    [(u "seqNum", ASingle (u "IN"));
     (u "mmsiresponder", ASingle (u "ST"));
     (u "destination", ASingle (u "ST"));
     (u "etadate", ASingle (u "DT"));
     (u "etatime", ASingle (u "TM"));
     (u "draught", ASingle (u "DE"));
     (u "cargo", ASingle (u "DE"));
     (u "length", ASingle (u "DE"));
     (u "breadth", ASingle (u "DE"));
     (u "type", ASingle (u "DE"));
     (u "persons", ASingle (u "DE"))].

(* nmeatypes_get.py:685 *)
Definition def_g_LRF : pdict :=
    [(u "seqNum", ASingle (u "IN"));
     (u "mmsirequestor", ASingle (u "ST"));
     (u "namerequestor", ASingle (u "ST"));
     (u "function", ASingle (u "ST"));
     (u "replystatus", ASingle (u "ST"))].

(* nmeatypes_get.py:692 *)
Definition def_g_LRI : pdict :=
    [(u "seqNum", ASingle (u "IN"));
     (u "controlflag", ASingle (u "CH"));
     (u "mmsirequestor", ASingle (u "ST"));
     (u "mmsidestination", ASingle (u "ST"));
     (u "latne", ASingle (u "LA"));
     (u "NSne", ASingle (u "LAD"));
     (u "lonne", ASingle (u "LN"));
     (u "EWne", ASingle (u "LND"));
     (u "latsw", ASingle (u "LA"));
     (u "NSsw", ASingle (u "LAD"));
     (u "lonsw", ASingle (u "LN"));
     (u "EWsw", ASingle (u "LND"))].

(* nmeatypes_get.py:706 *)
Definition def_g_LLQ : pdict :=
    [(u "utctime", ASingle (u "TM"));
     (u "utcdate", ASingle (u "DT"));
     (u "easting", ASingle (u "DE"));
     (u "eunit", ASingle (u "CH"));
     (u "northing", ASingle (u "DE"));
     (u "nunit", ASingle (u "CH"));
     (u "gpsQual", ASingle (u "IN"));
     (u "sip", ASingle (u "IN"));
     (u "posQual", ASingle (u "DE"));
     (u "height", ASingle (u "DE"));
     (u "hunit", ASingle (u "CH"))].

(* nmeatypes_get.py:719 *)
Definition def_g_MOB : pdict :=
    [(u "emitterid", ASingle (u "ST"));
     (u "mobstatus", ASingle (u "CH"));
     (u "timeactivation", ASingle (u "TM"));
     (u "mobpossource", ASingle (u "CH"));
     (u "dayactivated", ASingle (u "IN"));
     (u "timeposition", ASingle (u "TM"));
     (u "lat", ASingle (u "LA"));
     (u "NS", ASingle (u "LAD"));
     (u "lon", ASingle (u "LN"));
     (u "EW", ASingle (u "LND"));
     (u "cog", ASingle (u "DE"));
     (u "sog", ASingle (u "DE"));
     (u "mmsi", ASingle (u "ST"));
     (u "batterystatus", ASingle (u "CH"))].

(* nmeatypes_get.py:735 *)
Definition def_g_MSK : pdict :=
    [(u "freq", ASingle (u "DE"));
     (u "fmode", ASingle (u "CH"));
     (u "beacbps", ASingle (u "IN"));
     (u "bpsmode", ASingle (u "CH"));
     (u "MMSfreq", ASingle (u "DE"));
     (u "channel", ASingle (u "CH"));
     (u "status", ASingle (u "CH"))].

(* nmeatypes_get.py:744 *)
Definition def_g_MSS : pdict :=
    [(u "strength", ASingle (u "IN"));
     (u "snr", ASingle (u "IN"));
     (u "freq", ASingle (u "DE"));
     (u "beacbps", ASingle (u "IN"));
     (u "channel", ASingle (u "CH"))].

(* nmeatypes_get.py:751 *)
Definition def_g_MTW : pdict :=
    [(u "temp", ASingle (u "DE"));
     (u "tempu", ASingle (u "CH"))].

(* nmeatypes_get.py:755 *)
Definition def_g_MWD : pdict :=
    [(u "dirT", ASingle (u "DE"));
     (u "dirTu", ASingle (u "CH"));
     (u "dirM", ASingle (u "DE"));
     (u "dirMu", ASingle (u "CH"));
     (u "speedN", ASingle (u "DE"));
     (u "speedNu", ASingle (u "CH"));
     (u "speedM", ASingle (u "DE"));
     (u "speedMu", ASingle (u "CH"))].

(* nmeatypes_get.py:765 *)
Definition def_g_MWV : pdict :=
    [(u "angle", ASingle (u "DE"));
     (u "reference", ASingle (u "CH"));
     (u "speed", ASingle (u "DE"));
     (u "speedu", ASingle (u "CH"));
     (u "status", ASingle (u "CH"))].

(* nmeatypes_get.py:772 *)
Definition def_g_NAK : pdict :=
    [(u "talkerid", ASingle (u "ST"));
     (u "formatter", ASingle (u "ST"));
     (u "identifier", ASingle (u "ST"));
     (u "reason", ASingle (u "ST"));
     (u "text", ASingle (u "ST"))].

(* nmeatypes_get.py:779 *)
Definition def_g_NRM : pdict :=
    [(u "function", ASingle (u "CH"));
     (u "freqtable", ASingle (u "CH"));
     (u "txcovermask", ASingle (u "HX"));
     (u "msgtypemask", ASingle (u "HX"));
     (u "status", ASingle (u "CH"))].

(* nmeatypes_get.py:786 *)
Definition def_g_NRX : pdict :=
    [(u "numSen", ASingle (u "IN"));
     (u "senNum", ASingle (u "IN"));
     (u "seqid", ASingle (u "IN"));
     (u "msgcode", ASingle (u "CH"));
     (u "freqtable", ASingle (u "CH"));
     (u "time", ASingle (u "TM"));
     (u "day", ASingle (u "IN"));
     (u "month", ASingle (u "IN"));
     (u "year", ASingle (u "IN"));
     (u "totalchar", ASingle (u "DE"));
     (u "totalbad", ASingle (u "DE"));
     (u "status", ASingle (u "CH"));
     (u "body", ASingle (u "ST"))].

(* nmeatypes_get.py:801 *)
Definition def_g_NSR : pdict :=
    [(u "hdgintegrity", ASingle (u "CH"));
     (u "hdgplausibility", ASingle (u "CH"));
     (u "posintegrity", ASingle (u "CH"));
     (u "posplausibility", ASingle (u "CH"));
     (u "stwintegrity", ASingle (u "CH"));
     (u "stwplausibility", ASingle (u "CH"));
     (u "sogcogintegrity", ASingle (u "CH"));
     (u "sogcogplausibility", ASingle (u "CH"));
     (u "depthintegrity", ASingle (u "CH"));
     (u "depthplausibility", ASingle (u "CH"));
     (u "stwmode", ASingle (u "CH"));
     (u "timeintegrity", ASingle (u "CH"));
     (u "timeplausibility", ASingle (u "CH"))].

(* nmeatypes_get.py:816 *)
Definition def_g_OSD : pdict :=
    [(u "hdg", ASingle (u "DE"));
     (u "hdgstate", ASingle (u "CH"));
     (u "course", ASingle (u "DE"));
     (u "courseref", ASingle (u "CH"));
     (u "speed", ASingle (u "DE"));
     (u "speedref", ASingle (u "CH"));
     (u "set", ASingle (u "DE"));
     (u "drift", ASingle (u "DE"));
     (u "speedu", ASingle (u "CH"))].

(* nmeatypes_get.py:827 *)
Definition def_g_POS : pdict :=
    [(u "equipmentid", ASingle (u "ST"));
     (u "equipmentnum", ASingle (u "IN"));
     (u "posvalidity", ASingle (u "CH"));
     (u "posx", ASingle (u "DE"));
     (u "posy", ASingle (u "DE"));
     (u "posz", ASingle (u "DE"));
     (u "shipdimvalid", ASingle (u "CH"));
     (u "width", ASingle (u "DE"));
     (u "length", ASingle (u "DE"));
     (u "status", ASingle (u "CH"))].

(* nmeatypes_get.py:839 *)
Definition def_g_PRC : pdict :=
    [(u "leverdmdpos", ASingle (u "DE"));
     (u "leverdmdstatus", ASingle (u "CH"));
     (u "rpmdemand", ASingle (u "DE"));
     (u "rpmdemandstatus", ASingle (u "CH"));
     (u "pitchdmd", ASingle (u "DE"));
     (u "pitchmode", ASingle (u "CH"));
     (u "operatinglocind", ASingle (u "CH"));
     (u "engineshaftnum", ASingle (u "IN"))].

(* nmeatypes_get.py:849 *)
Definition def_g_RLM : pdict :=
    [(u "beacon", ASingle (u "HX"));
     (u "time", ASingle (u "TM"));
     (u "code", ASingle (u "CH"));
     (u "body", ASingle (u "HX"))].

(* nmeatypes_get.py:855 *)
Definition def_g_RMA : pdict :=
    [(u "status", ASingle (u "CH"));
     (u "lat", ASingle (u "LA"));
     (u "NS", ASingle (u "LAD"));
     (u "lon", ASingle (u "LN"));
     (u "EW", ASingle (u "LND"));
     (u "reserved1", ASingle (u "ST"));
     (u "reserved2", ASingle (u "ST"));
     (u "sog", ASingle (u "DE"));
     (u "cog", ASingle (u "DE"));
     (u "var", ASingle (u "DE"));
     (u "dirvar", ASingle (u "CH"))].

(* nmeatypes_get.py:868 *)
Definition def_g_RMB : pdict :=
    [(u "status", ASingle (u "CH"));
     (u "ctrkerr", ASingle (u "DE"));
     (u "dirs", ASingle (u "CH"));
     (u "wptO", ASingle (u "CH"));
     (u "wptD", ASingle (u "CH"));
     (u "lat", ASingle (u "LA"));
     (u "NS", ASingle (u "LAD"));
     (u "lon", ASingle (u "LN"));
     (u "EW", ASingle (u "LND"));
     (u "range", ASingle (u "DE"));
     (u "bearing", ASingle (u "DE"));
     (u "velclos", ASingle (u "DE"));
     (u "arrstatus", ASingle (u "CH"));
     (u "valstatus", ASingle (u "CH"))].

(* nmeatypes_get.py:884 *)
Definition def_g_RMC : pdict :=
    [(u "time", ASingle (u "TM"));
     (u "status", ASingle (u "CH"));
     (u "lat", ASingle (u "LA"));
     (u "NS", ASingle (u "LAD"));
     (u "lon", ASingle (u "LN"));
     (u "EW", ASingle (u "LND"));
     (u "spd", ASingle (u "DE"));
     (u "cog", ASingle (u "DE"));
     (u "date", ASingle (u "DT"));
     (u "mv", ASingle (u "DE"));
     (u "mvEW", ASingle (u "ST"));
     (u "posMode", ASingle (u "CH"));
     (u "navStatus", ASingle (u "CH"))].

(* nmeatypes_get.py:899 *)
Definition def_g_ROR : pdict :=
    [(u "stbdrudderorder", ASingle (u "DE"));
     (u "stbdrudderstatus", ASingle (u "CH"));
     (u "portrudderorder", ASingle (u "DE"));
     (u "portrudderstatus", ASingle (u "CH"));
     (u "operatinglocind", ASingle (u "CH"))].

(* nmeatypes_get.py:906 *)
Definition def_g_ROT : pdict :=
    [(u "rot", ASingle (u "DE"));
     (u "valid", ASingle (u "CH"))].

(* nmeatypes_get.py:910 *)
Definition def_g_RRT : pdict :=
    [(u "tfrtype", ASingle (u "CH"));
     (u "tfrroutename", ASingle (u "ST"));
     (u "tfrroutever", ASingle (u "ST"));
     (u "wptid", ASingle (u "ST"));
     (u "filestatus", ASingle (u "CH"));
     (u "appstatus", ASingle (u "CH"))].

(* nmeatypes_get.py:918 *)
Definition def_g_RPM : pdict :=
    [(u "source", ASingle (u "CH"));
     (u "engineshaftnum", ASingle (u "IN"));
     (u "rpm", ASingle (u "DE"));
     (u "pitch", ASingle (u "DE"));
     (u "status", ASingle (u "CH"))].

(* nmeatypes_get.py:925 *)
Definition def_g_RSA : pdict :=
    [(u "stbdangle", ASingle (u "DE"));
     (u "stbdstatus", ASingle (u "CH"));
     (u "portangle", ASingle (u "DE"));
     (u "portstatus", ASingle (u "CH"))].

(* nmeatypes_get.py:931 *)
Definition def_g_RSD : pdict :=
    [(u "origin1range", ASingle (u "DE"));
     (u "origin1bearing", ASingle (u "DE"));
     (u "vrm1", ASingle (u "DE"));
     (u "ebl1", ASingle (u "DE"));
     (u "origin2range", ASingle (u "DE"));
     (u "origin2bearing", ASingle (u "DE"));
     (u "vrm2", ASingle (u "DE"));
     (u "ebl2", ASingle (u "DE"));
     (u "cursorrange", ASingle (u "DE"));
     (u "rangebearing", ASingle (u "DE"));
     (u "rangescale", ASingle (u "DE"));
     (u "rangeu", ASingle (u "CH"));
     (u "displayrot", ASingle (u "CH"))].

(* nmeatypes_get.py:946 *)
Definition def_g_RTE : pdict :=
    [(u "numMsg", ASingle (u "IN"));
     (u "msgNum", ASingle (u "IN"));
     (u "status", ASingle (u "CH"));
     (u "routeid", ASingle (u "ST"));
     (u "group_wp", AGroup (NStr (u "None")) [(u "wpt", ASingle (u "ST"))])].

(* nmeatypes_get.py:958 *)
Definition def_g_SFI : pdict :=
    [(u "numSen", ASingle (u "IN"));
     (u "senNum", ASingle (u "IN"));
     (u "freqgroup", AGroup (NInt (6)) [(u "freq", ASingle (u "IN"));
     (u "mode", ASingle (u "ST"))])].

(* nmeatypes_get.py:969 *)
Definition def_g_SM1 : pdict :=
    [(u "MSIstatus", ASingle (u "CH"));
     (u "msgnum", ASingle (u "IN"));
     (u "LESseqnum", ASingle (u "IN"));
     (u "LESid", ASingle (u "IN"));
     (u "oceanregioncode", ASingle (u "IN"));
     (u "prioritycode", ASingle (u "IN"));
     (u "servicecode", ASingle (u "IN"));
     (u "presentationcode", ASingle (u "IN"));
     (u "year", ASingle (u "IN"));
     (u "month", ASingle (u "IN"));
     (u "day", ASingle (u "IN"));
     (u "hour", ASingle (u "IN"));
     (u "minute", ASingle (u "IN"));
     (u "addresscode", ASingle (u "IN"))].

(* nmeatypes_get.py:985 *)
Definition def_g_SM2 : pdict :=
    [(u "MSIstatus", ASingle (u "CH"));
     (u "msgnum", ASingle (u "IN"));
     (u "LESseqnum", ASingle (u "IN"));
     (u "LESid", ASingle (u "IN"));
     (u "oceanregioncode", ASingle (u "IN"));
     (u "prioritycode", ASingle (u "IN"));
     (u "servicecode", ASingle (u "IN"));
     (u "presentationcode", ASingle (u "IN"));
     (u "year", ASingle (u "IN"));
     (u "month", ASingle (u "IN"));
     (u "day", ASingle (u "IN"));
     (u "hour", ASingle (u "IN"));
     (u "minute", ASingle (u "IN"));
     (u "coastalwarnnavarea", ASingle (u "IN"));
     (u "coastalwarnarea", ASingle (u "CH"));
     (u "coastalwarnsubjectind", ASingle (u "CH"))].

(* nmeatypes_get.py:1003 *)
Definition def_g_SM3 : pdict :=
    [(u "MSIstatus", ASingle (u "CH"));
     (u "msgnum", ASingle (u "IN"));
     (u "LESseqnum", ASingle (u "IN"));
     (u "LESid", ASingle (u "IN"));
     (u "oceanregioncode", ASingle (u "IN"));
     (u "prioritycode", ASingle (u "IN"));
     (u "servicecode", ASingle (u "IN"));
     (u "presentationcode", ASingle (u "IN"));
     (u "year", ASingle (u "IN"));
     (u "month", ASingle (u "IN"));
     (u "day", ASingle (u "IN"));
     (u "hour", ASingle (u "IN"));
     (u "minute", ASingle (u "IN"));
     (u "circarealat", ASingle (u "LA"));
     (u "circareaNS", ASingle (u "LAD"));
     (u "circarealon", ASingle (u "LN"));
     (u "circareaEW", ASingle (u "LND"));
     (u "circarearadius", ASingle (u "IN"))].

(* nmeatypes_get.py:1023 *)
Definition def_g_SM4 : pdict :=
    [(u "MSIstatus", ASingle (u "CH"));
     (u "msgnum", ASingle (u "IN"));
     (u "LESseqnum", ASingle (u "IN"));
     (u "LESid", ASingle (u "IN"));
     (u "oceanregioncode", ASingle (u "IN"));
     (u "prioritycode", ASingle (u "IN"));
     (u "servicecode", ASingle (u "IN"));
     (u "presentationcode", ASingle (u "IN"));
     (u "year", ASingle (u "IN"));
     (u "month", ASingle (u "IN"));
     (u "day", ASingle (u "IN"));
     (u "hour", ASingle (u "IN"));
     (u "minute", ASingle (u "IN"));
     (u "redareaswlat", ASingle (u "LA"));
     (u "recareaswNS", ASingle (u "LAD"));
     (u "redareaswlon", ASingle (u "LN"));
     (u "recareaswEW", ASingle (u "LND"));
     (u "recareaextentN", ASingle (u "IN"));
     (u "recareaextentE", ASingle (u "IN"))].

(* nmeatypes_get.py:1044 *)
Definition def_g_SMB : pdict :=
    [(u "numSen", ASingle (u "IN"));
     (u "senNum", ASingle (u "IN"));
     (u "seqid", ASingle (u "IN"));
     (u "msgnum", ASingle (u "IN"));
     (u "body", ASingle (u "ST"))].

(* nmeatypes_get.py:1045 *)
Definition def_g_SPW : pdict :=
    [(u "pwdprotectsentence", ASingle (u "ST"));
     (u "id", ASingle (u "ST"));
     (u "pwdlevel", ASingle (u "IN"));
     (u "password", ASingle (u "ST"))].

(* nmeatypes_get.py:1051 *)
Definition def_g_SSD : pdict :=
    [(u "callsign", ASingle (u "ST"));
     (u "name", ASingle (u "ST"));
     (u "posAref", ASingle (u "IN"));
     (u "posBref", ASingle (u "IN"));
     (u "posCref", ASingle (u "IN"));
     (u "posDref", ASingle (u "IN"));
     (u "DTEind", ASingle (u "ST"));
     (u "sourceid", ASingle (u "ST"))].

(* nmeatypes_get.py:1061 *)
Definition def_g_STN : pdict :=
    [(u "talkerId", ASingle (u "ST"))].

(* nmeatypes_get.py:1064 *)
Definition def_g_THS : pdict :=
    [(u "headt", ASingle (u "DE"));
     (u "mi", ASingle (u "CH"))].

(* nmeatypes_get.py:1068 *)
Definition def_g_TLB : pdict :=
    [(u "group", AGroup (NStr (u "None")) [(u "targetnum", ASingle (u "IN"));
     (u "label", ASingle (u "ST"))])].

(* nmeatypes_get.py:1077 *)
Definition def_g_TLL : pdict :=
    [(u "targetnum", ASingle (u "IN"));
     (u "targetlat", ASingle (u "LA"));
     (u "targetlatNS", ASingle (u "LAD"));
     (u "targetlon", ASingle (u "LN"));
     (u "targetlonEW", ASingle (u "LND"));
     (u "targetname", ASingle (u "ST"));
     (u "time", ASingle (u "TM"));
     (u "status", ASingle (u "CH"));
     (u "reftarget", ASingle (u "CH"))].

(* nmeatypes_get.py:1088 *)
Definition def_g_TRA : pdict :=
    [(u "time", ASingle (u "TM"));
     (u "heading", ASingle (u "DE"));
     (u "pitch", ASingle (u "DE"));
     (u "roll", ASingle (u "DE"));
     (u "quality", ASingle (u "IN"));
     (u "svid", ASingle (u "IN"));
     (u "diffAge", ASingle (u "DE"));
     (u "stationID", ASingle (u "ST"))].

(* nmeatypes_get.py:1098 *)
Definition def_g_TRC : pdict :=
    [(u "thrusternum", ASingle (u "IN"));
     (u "dmdrpm", ASingle (u "DE"));
     (u "rpmmode", ASingle (u "CH"));
     (u "dmdpitch", ASingle (u "DE"));
     (u "pitchmode", ASingle (u "CH"));
     (u "dmdazimuth", ASingle (u "DE"));
     (u "operatinglocind", ASingle (u "CH"));
     (u "status", ASingle (u "CH"))].

(* nmeatypes_get.py:1108 *)
Definition def_g_TRD : pdict :=
    [(u "thrusternum", ASingle (u "IN"));
     (u "rpmresponse", ASingle (u "IN"));
     (u "rpmmode", ASingle (u "CH"));
     (u "pitchresponse", ASingle (u "IN"));
     (u "pitchmode", ASingle (u "CH"));
     (u "azimuthresponse", ASingle (u "IN"))].

(* nmeatypes_get.py:1116 *)
Definition def_g_TRL : pdict :=
    [(u "totlognum", ASingle (u "IN"));
     (u "lognum", ASingle (u "IN"));
     (u "seqid", ASingle (u "IN"));
     (u "switchoffdate", ASingle (u "ST"));
     (u "switchofftime", ASingle (u "TM"));
     (u "switchondate", ASingle (u "ST"));
     (u "switchontime", ASingle (u "TM"));
     (u "reasoncode", ASingle (u "IN"))].

(* nmeatypes_get.py:1126 *)
Definition def_g_TRF : pdict :=
    [(u "time", ASingle (u "TM"));
     (u "date", ASingle (u "DT"));
     (u "lat", ASingle (u "LA"));
     (u "NS", ASingle (u "LAD"));
     (u "lon", ASingle (u "LN"));
     (u "EW", ASingle (u "LND"));
     (u "elangle", ASingle (u "DE"));
     (u "iter", ASingle (u "DE"));
     (u "Dopint", ASingle (u "DE"));
     (u "dist", ASingle (u "DE"));
     (u "svid", ASingle (u "IN"))].

(* nmeatypes_get.py:1139 *)
Definition def_g_TTD : pdict :=
    [(u "numSen", ASingle (u "IN"));
     (u "senNum", ASingle (u "IN"));
     (u "seqid", ASingle (u "IN"));
     (u "data", ASingle (u "ST"));
     (u "fillbits", ASingle (u "IN"))].

(* nmeatypes_get.py:1146 *)
Definition def_g_TTM : pdict :=
    [(u "targetnum", ASingle (u "IN"));
     (u "targetdist", ASingle (u "DE"));
     (u "targetbearing", ASingle (u "DE"));
     (u "targetbearingu", ASingle (u "CH"));
     (u "targetspeed", ASingle (u "DE"));
     (u "targetcourse", ASingle (u "DE"));
     (u "targetcourseu", ASingle (u "CH"));
     (u "closestapproach", ASingle (u "DE"));
     (u "timetoCPA", ASingle (u "DE"));
     (u "speedu", ASingle (u "CH"));
     (u "targetname", ASingle (u "ST"));
     (u "targetstatus", ASingle (u "CH"));
     (u "reftarget", ASingle (u "ST"));
     (u "time", ASingle (u "TM"));
     (u "acquisitiontype", ASingle (u "CH"))].

(* nmeatypes_get.py:1163 *)
Definition def_g_TUT : pdict :=
    [(u "sourceid", ASingle (u "ST"));
     (u "numSen", ASingle (u "HX"));
     (u "senNum", ASingle (u "HX"));
     (u "seqid", ASingle (u "IN"));
     (u "translationcode", ASingle (u "ST"));
     (u "text", ASingle (u "ST"))].

(* nmeatypes_get.py:1171 *)
Definition def_g_TXT : pdict :=
    [(u "numMsg", ASingle (u "IN"));
     (u "msgNum", ASingle (u "IN"));
     (u "msgType", ASingle (u "IN"));
     (u "text", ASingle (u "ST"))].

(* nmeatypes_get.py:1177 *)
Definition def_g_UID : pdict :=
    [(u "uid1", ASingle (u "ST"));
     (u "uid2", ASingle (u "ST"))].

(* nmeatypes_get.py:1181 *)
Definition def_g_VBW : pdict :=
    [(u "longwaterspd", ASingle (u "DE"));
     (u "transwaterspd", ASingle (u "DE"));
     (u "waterspdstatus", ASingle (u "CH"));
     (u "longgroundspd", ASingle (u "DE"));
     (u "transgroundspd", ASingle (u "DE"));
     (u "groundspdstatus", ASingle (u "CH"));
     (u "sterntranswaterspd", ASingle (u "DE"));
     (u "sternwaterspdstatus", ASingle (u "CH"));
     (u "sterntransgroundspd", ASingle (u "DE"));
     (u "sterngroundspdstatus", ASingle (u "CH"))].

(* nmeatypes_get.py:1193 *)
Definition def_g_VDM : pdict :=
    [(u "numSen", ASingle (u "IN"));
     (u "senNum", ASingle (u "IN"));
     (u "seqid", ASingle (u "IN"));
     (u "aischan", ASingle (u "ST"));
     (u "itumsg", ASingle (u "ST"));
     (u "fillbits", ASingle (u "IN"))].

(* nmeatypes_get.py:1201 *)
Definition def_g_VDO : pdict :=
    [(u "numSen", ASingle (u "IN"));
     (u "senNum", ASingle (u "IN"));
     (u "seqid", ASingle (u "IN"));
     (u "aischan", ASingle (u "ST"));
     (u "itumsg", ASingle (u "ST"));
     (u "fillbits", ASingle (u "IN"))].

(* nmeatypes_get.py:1209 *)
Definition def_g_VDR : pdict :=
    [(u "dirT", ASingle (u "DE"));
     (u "dirTu", ASingle (u "CH"));
     (u "dirM", ASingle (u "DE"));
     (u "dirMu", ASingle (u "CH"));
     (u "spd", ASingle (u "DE"));
     (u "spdu", ASingle (u "CH"))].

(* nmeatypes_get.py:1217 *)
Definition def_g_VER : pdict :=
    [(u "numSen", ASingle (u "IN"));
     (u "senNum", ASingle (u "IN"));
     (u "devicetype", ASingle (u "ST"));
     (u "vendorid", ASingle (u "ST"));
     (u "uid", ASingle (u "ST"));
     (u "mfrserial", ASingle (u "ST"));
     (u "model", ASingle (u "ST"));
     (u "software", ASingle (u "ST"));
     (u "hardware", ASingle (u "ST"));
     (u "seqid", ASingle (u "IN"))].

(* nmeatypes_get.py:1229 *)
Definition def_g_VHW : pdict :=
    [(u "hdgT", ASingle (u "DE"));
     (u "hgdTu", ASingle (u "CH"));
     (u "hdgM", ASingle (u "DE"));
     (u "hgdMu", ASingle (u "CH"));
     (u "spdN", ASingle (u "DE"));
     (u "spdNu", ASingle (u "CH"));
     (u "spdK", ASingle (u "DE"));
     (u "spdKu", ASingle (u "CH"))].

(* nmeatypes_get.py:1239 *)
Definition def_g_VLW : pdict :=
    [(u "twd", ASingle (u "DE"));
     (u "twdUnit", ASingle (u "CH"));
     (u "wd", ASingle (u "DE"));
     (u "wdUnit", ASingle (u "CH"));
     (u "tgd", ASingle (u "DE"));
     (u "tgdUnit", ASingle (u "CH"));
     (u "gd", ASingle (u "DE"));
     (u "gdUnit", ASingle (u "CH"))].

(* nmeatypes_get.py:1249 *)
Definition def_g_VPW : pdict :=
    [(u "spdN", ASingle (u "DE"));
     (u "spdNu", ASingle (u "CH"));
     (u "spdK", ASingle (u "DE"));
     (u "spdKu", ASingle (u "CH"))].

(* nmeatypes_get.py:1255 *)
Definition def_g_VSD : pdict :=
    [(u "type", ASingle (u "ST"));
     (u "draught", ASingle (u "DE"));
     (u "pob", ASingle (u "IN"));
     (u "destination", ASingle (u "ST"));
     (u "etatime", ASingle (u "TM"));
     (u "etaday", ASingle (u "IN"));
     (u "etamonth", ASingle (u "IN"));
     (u "regappflags1", ASingle (u "IN"));
     (u "regappflags2", ASingle (u "IN"))].

(* nmeatypes_get.py:1266 *)
Definition def_g_VTG : pdict :=
    [(u "cogt", ASingle (u "DE"));
     (u "cogtUnit", ASingle (u "CH"));
     (u "cogm", ASingle (u "DE"));
     (u "cogmUnit", ASingle (u "CH"));
     (u "sogn", ASingle (u "DE"));
     (u "sognUnit", ASingle (u "CH"));
     (u "sogk", ASingle (u "DE"));
     (u "sogkUnit", ASingle (u "CH"));
     (u "posMode", ASingle (u "CH"))].

(* nmeatypes_get.py:1277 *)
Definition def_g_WAT : pdict :=
    [(u "msgtype", ASingle (u "CH"));
     (u "time", ASingle (u "TM"));
     (u "alarmtype", ASingle (u "ST"));
     (u "loc1ind", ASingle (u "IN"));
     (u "loc2ind", ASingle (u "IN"));
     (u "detectionpoint", ASingle (u "IN"));
     (u "alarmcondition", ASingle (u "CH"));
     (u "overridesetting", ASingle (u "CH"));
     (u "text", ASingle (u "ST"))].

(* nmeatypes_get.py:1288 *)
Definition def_g_WCV : pdict :=
    [(u "vel", ASingle (u "DE"));
     (u "velu", ASingle (u "CH"));
     (u "wpt", ASingle (u "ST"));
     (u "mode", ASingle (u "CH"))].

(* nmeatypes_get.py:1294 *)
Definition def_g_WNC : pdict :=
    [(u "distN", ASingle (u "DE"));
     (u "distNu", ASingle (u "CH"));
     (u "distK", ASingle (u "DE"));
     (u "distKu", ASingle (u "CH"));
     (u "wptto", ASingle (u "ST"));
     (u "wptfrom", ASingle (u "ST"))].

(* nmeatypes_get.py:1302 *)
Definition def_g_WPL : pdict :=
    [(u "lat", ASingle (u "LA"));
     (u "NS", ASingle (u "LAD"));
     (u "lon", ASingle (u "LN"));
     (u "EW", ASingle (u "LND"));
     (u "wpt", ASingle (u "ST"))].

(* nmeatypes_get.py:1309 *)
Definition def_g_XDR : pdict :=
    [(u "group", AGroup (NStr (u "None")) [(u "tdrtype", ASingle (u "CH"));
     (u "data", ASingle (u "DE"));
     (u "dataunit", ASingle (u "CH"));
     (u "tdrid", ASingle (u "ST"))])].

(* nmeatypes_get.py:1325 *)
Definition def_g_XTE : pdict :=
    [(u "gwarn", ASingle (u "CH"));
     (u "LCcwarn", ASingle (u "CH"));
     (u "ctrkerr", ASingle (u "DE"));
     (u "dirs", ASingle (u "CH"));
     (u "disUnit", ASingle (u "CH"));
     (u "mode", ASingle (u "CH"))].

(* nmeatypes_get.py:1333 *)
Definition def_g_XTR : pdict :=
    [(u "ctkerr", ASingle (u "DE"));
     (u "steerdir", ASingle (u "CH"));
     (u "units", ASingle (u "CH"))].

(* nmeatypes_get.py:1338 *)
Definition def_g_ZDA : pdict :=
    [(u "time", ASingle (u "TM"));
     (u "day", ASingle (u "IN"));
     (u "month", ASingle (u "IN"));
     (u "year", ASingle (u "IN"));
     (u "ltzh", ASingle (u "ST"));
     (u "ltzn", ASingle (u "ST"))].

(* nmeatypes_get.py:1346 *)
Definition def_g_ZDL : pdict :=
    [(u "time", ASingle (u "TM"));
     (u "dist", ASingle (u "DE"));
     (u "type", ASingle (u "CH"))].

(* nmeatypes_get.py:1351 *)
Definition def_g_ZFO : pdict :=
    [(u "observationtime", ASingle (u "TM"));
     (u "elapsedtime", ASingle (u "TM"));
     (u "originwpt", ASingle (u "ST"))].

(* nmeatypes_get.py:1356 *)
Definition def_g_ZTG : pdict :=
    [(u "observationtime", ASingle (u "TM"));
     (u "timetogo", ASingle (u "TM"));
     (u "destwpt", ASingle (u "ST"))].

(* nmeatypes_get.py:1364 *)
Definition def_g_FOO : pdict :=
    [(u "spam", ASingle (u "Z2"));
     (u "eggs", ASingle (u "Y1"))].

(* nmeatypes_get.py:1381 *)
Definition def_g_HPR : pdict :=
    [(u "time", ASingle (u "TM"));
     (u "heading", ASingle (u "DE"));
     (u "pitch", ASingle (u "DE"));
     (u "roll", ASingle (u "DE"));
     (u "quality", ASingle (u "IN"));
     (u "svid", ASingle (u "IN"));
     (u "diffAge", ASingle (u "DE"));
     (u "stationID", ASingle (u "ST"))].

(* nmeatypes_get.py:1391 *)
Definition def_g_HPR2 : pdict :=
    [(u "time", ASingle (u "TM"));
     (u "heading", ASingle (u "DE"));
     (u "pitch", ASingle (u "DE"));
     (u "roll", ASingle (u "DE"));
     (u "quality", ASingle (u "IN"));
     (u "svid", ASingle (u "IN"));
     (u "diffAge", ASingle (u "DE"));
     (u "stationID", ASingle (u "ST"))].

(* nmeatypes_get.py:1403 *)
Definition def_g_HPD : pdict :=
    [(u "wno", ASingle (u "IN"));
     (u "tow", ASingle (u "DE"));
     (u "heading", ASingle (u "DE"));
     (u "pitch", ASingle (u "DE"));
     (u "cog", ASingle (u "DE"));
     (u "lat", ASingle (u "DE"));
     (u "lon", ASingle (u "DE"));
     (u "alt", ASingle (u "DE"));
     (u "velE", ASingle (u "DE"));
     (u "velN", ASingle (u "DE"));
     (u "velU", ASingle (u "DE"));
     (u "veldeltaE", ASingle (u "DE"));
     (u "veldeltaN", ASingle (u "DE"));
     (u "veldeltaU", ASingle (u "DE"));
     (u "baseline", ASingle (u "DE"));
     (u "sivmain", ASingle (u "IN"));
     (u "sivsecond", ASingle (u "IN"))].

(* nmeatypes_get.py:1424 NMEA_PAYLOADS_GET *)
Definition NMEA_PAYLOADS_GET : list (pystr * pdict) := [
  (u "AAM", def_g_AAM) (* nmeatypes_get.py:38 *);
  (u "ABK", def_g_ABK) (* nmeatypes_get.py:45 *);
  (u "ABM", def_g_ABM) (* nmeatypes_get.py:52 *);
  (u "ACA", def_g_ACA) (* nmeatypes_get.py:61 *);
  (u "ACK", def_g_ACK) (* nmeatypes_get.py:82 *);
  (u "ACN", def_g_ACN) (* nmeatypes_get.py:85 *);
  (u "ACS", def_g_ACS) (* nmeatypes_get.py:93 *);
  (u "AIR", def_g_AIR) (* nmeatypes_get.py:101 *);
  (u "AKD", def_g_AKD) (* nmeatypes_get.py:115 *);
  (u "ALA", def_g_ALA) (* nmeatypes_get.py:125 *);
  (u "ALC", def_g_ALC) (* nmeatypes_get.py:135 *);
  (u "ALF", def_g_ALF) (* nmeatypes_get.py:149 *);
  (u "ALR", def_g_ALR) (* nmeatypes_get.py:164 *);
  (u "APA", def_g_APA) (* nmeatypes_get.py:171 *);
  (u "APB", def_g_APB) (* nmeatypes_get.py:183 *);
  (u "ARC", def_g_ARC) (* nmeatypes_get.py:200 *);
  (u "BBM", def_g_BBM) (* nmeatypes_get.py:207 *);
  (u "BEC", def_g_BEC) (* nmeatypes_get.py:216 *);
  (u "BOD", def_g_BOD) (* nmeatypes_get.py:230 *);
  (u "BWC", def_g_BWC) (* nmeatypes_get.py:238 *);
  (u "BWR", def_g_BWR) (* nmeatypes_get.py:253 *);
  (u "BWW", def_g_BWW) (* nmeatypes_get.py:268 *);
  (u "CUR", def_g_CUR) (* nmeatypes_get.py:276 *);
  (u "DBT", def_g_DBT) (* nmeatypes_get.py:289 *);
  (u "DDC", def_g_DDC) (* nmeatypes_get.py:297 *);
  (u "DOR", def_g_DOR) (* nmeatypes_get.py:303 *);
  (u "DPT", def_g_DPT) (* nmeatypes_get.py:314 *);
  (u "DSC", def_g_DSC) (* nmeatypes_get.py:319 *);
  (u "DSE", def_g_DSE) (* nmeatypes_get.py:332 *);
  (u "DTM", def_g_DTM) (* nmeatypes_get.py:345 *);
  (u "EPV", def_g_EPV) (* nmeatypes_get.py:355 *);
  (u "ETL", def_g_ETL) (* nmeatypes_get.py:362 *);
  (u "EVE", def_g_EVE) (* nmeatypes_get.py:370 *);
  (u "FIR", def_g_FIR) (* nmeatypes_get.py:375 *);
  (u "FMI", def_g_FMI) (* nmeatypes_get.py:387 *);
  (u "FSI", def_g_FSI) (* nmeatypes_get.py:401 *);
  (u "GBS", def_g_GBS) (* nmeatypes_get.py:408 *);
  (u "GEN", def_g_GEN) (* nmeatypes_get.py:420 *);
  (u "GFA", def_g_GFA) (* nmeatypes_get.py:425 *);
  (u "GGA", def_g_GGA) (* nmeatypes_get.py:436 *);
  (u "GLL", def_g_GLL) (* nmeatypes_get.py:452 *);
  (u "GMP", def_g_GMP) (* nmeatypes_get.py:461 *);
  (u "GNS", def_g_GNS) (* nmeatypes_get.py:475 *);
  (u "GRS", def_g_GRS) (* nmeatypes_get.py:490 *);
  (u "GSA", def_g_GSA) (* nmeatypes_get.py:502 *);
  (u "GST", def_g_GST) (* nmeatypes_get.py:516 *);
  (u "GSV", def_g_GSV) (* nmeatypes_get.py:526 *);
  (u "HBT", def_g_HBT) (* nmeatypes_get.py:541 *);
  (u "HCR", def_g_HCR) (* nmeatypes_get.py:546 *);
  (u "HDG", def_g_HDG) (* nmeatypes_get.py:552 *);
  (u "HDM", def_g_HDM) (* nmeatypes_get.py:559 *);
  (u "HDT", def_g_HDT) (* nmeatypes_get.py:563 *);
  (u "HMR", def_g_HMR) (* nmeatypes_get.py:567 *);
  (u "HMS", def_g_HMS) (* nmeatypes_get.py:586 *);
  (u "HRM", def_g_HRM) (* nmeatypes_get.py:591 *);
  (u "HSC", def_g_HSC) (* nmeatypes_get.py:603 *);
  (u "HSS", def_g_HSS) (* nmeatypes_get.py:610 *);
  (u "HTC", def_g_HTC) (* nmeatypes_get.py:615 *);
  (u "HTD", def_g_HTD) (* nmeatypes_get.py:631 *);
  (u "LR1", def_g_LR1) (* nmeatypes_get.py:650 *);
  (u "LR2", def_g_LR2) (* nmeatypes_get.py:658 *);
  (u "LR3", def_g_LR3) (* nmeatypes_get.py:672 *);
  (u "LRF", def_g_LRF) (* nmeatypes_get.py:685 *);
  (u "LRI", def_g_LRI) (* nmeatypes_get.py:692 *);
  (u "LLQ", def_g_LLQ) (* nmeatypes_get.py:706 *);
  (u "MOB", def_g_MOB) (* nmeatypes_get.py:719 *);
  (u "MSK", def_g_MSK) (* nmeatypes_get.py:735 *);
  (u "MSS", def_g_MSS) (* nmeatypes_get.py:744 *);
  (u "MTW", def_g_MTW) (* nmeatypes_get.py:751 *);
  (u "MWD", def_g_MWD) (* nmeatypes_get.py:755 *);
  (u "MWV", def_g_MWV) (* nmeatypes_get.py:765 *);
  (u "NAK", def_g_NAK) (* nmeatypes_get.py:772 *);
  (u "NRM", def_g_NRM) (* nmeatypes_get.py:779 *);
  (u "NRX", def_g_NRX) (* nmeatypes_get.py:786 *);
  (u "NSR", def_g_NSR) (* nmeatypes_get.py:801 *);
  (u "OSD", def_g_OSD) (* nmeatypes_get.py:816 *);
  (u "POS", def_g_POS) (* nmeatypes_get.py:827 *);
  (u "PRC", def_g_PRC) (* nmeatypes_get.py:839 *);
  (u "RLM", def_g_RLM) (* nmeatypes_get.py:849 *);
  (u "RMA", def_g_RMA) (* nmeatypes_get.py:855 *);
  (u "RMB", def_g_RMB) (* nmeatypes_get.py:868 *);
  (u "RMC", def_g_RMC) (* nmeatypes_get.py:884 *);
  (u "ROR", def_g_ROR) (* nmeatypes_get.py:899 *);
  (u "ROT", def_g_ROT) (* nmeatypes_get.py:906 *);
  (u "RRT", def_g_RRT) (* nmeatypes_get.py:910 *);
  (u "RPM", def_g_RPM) (* nmeatypes_get.py:918 *);
  (u "RSA", def_g_RSA) (* nmeatypes_get.py:925 *);
  (u "RSD", def_g_RSD) (* nmeatypes_get.py:931 *);
  (u "RTE", def_g_RTE) (* nmeatypes_get.py:946 *);
  (u "SFI", def_g_SFI) (* nmeatypes_get.py:958 *);
  (u "SM1", def_g_SM1) (* nmeatypes_get.py:969 *);
  (u "SM2", def_g_SM2) (* nmeatypes_get.py:985 *);
  (u "SM3", def_g_SM3) (* nmeatypes_get.py:1003 *);
  (u "SM4", def_g_SM4) (* nmeatypes_get.py:1023 *);
  (u "SMB", def_g_SMB) (* nmeatypes_get.py:1044 *);
  (u "SPW", def_g_SPW) (* nmeatypes_get.py:1045 *);
  (u "SSD", def_g_SSD) (* nmeatypes_get.py:1051 *);
  (u "STN", def_g_STN) (* nmeatypes_get.py:1061 *);
  (u "THS", def_g_THS) (* nmeatypes_get.py:1064 *);
  (u "TLB", def_g_TLB) (* nmeatypes_get.py:1068 *);
  (u "TLL", def_g_TLL) (* nmeatypes_get.py:1077 *);
  (u "TRA", def_g_TRA) (* nmeatypes_get.py:1088 *);
  (u "TRC", def_g_TRC) (* nmeatypes_get.py:1098 *);
  (u "TRD", def_g_TRD) (* nmeatypes_get.py:1108 *);
  (u "TRL", def_g_TRL) (* nmeatypes_get.py:1116 *);
  (u "TRF", def_g_TRF) (* nmeatypes_get.py:1126 *);
  (u "TTD", def_g_TTD) (* nmeatypes_get.py:1139 *);
  (u "TTM", def_g_TTM) (* nmeatypes_get.py:1146 *);
  (u "TUT", def_g_TUT) (* nmeatypes_get.py:1163 *);
  (u "TXT", def_g_TXT) (* nmeatypes_get.py:1171 *);
  (u "UID", def_g_UID) (* nmeatypes_get.py:1177 *);
  (u "VBW", def_g_VBW) (* nmeatypes_get.py:1181 *);
  (u "VDM", def_g_VDM) (* nmeatypes_get.py:1193 *);
  (u "VDO", def_g_VDO) (* nmeatypes_get.py:1201 *);
  (u "VDR", def_g_VDR) (* nmeatypes_get.py:1209 *);
  (u "VER", def_g_VER) (* nmeatypes_get.py:1217 *);
  (u "VHW", def_g_VHW) (* nmeatypes_get.py:1229 *);
  (u "VLW", def_g_VLW) (* nmeatypes_get.py:1239 *);
  (u "VPW", def_g_VPW) (* nmeatypes_get.py:1249 *);
  (u "VSD", def_g_VSD) (* nmeatypes_get.py:1255 *);
  (u "VTG", def_g_VTG) (* nmeatypes_get.py:1266 *);
  (u "WAT", def_g_WAT) (* nmeatypes_get.py:1277 *);
  (u "WCV", def_g_WCV) (* nmeatypes_get.py:1288 *);
  (u "WNC", def_g_WNC) (* nmeatypes_get.py:1294 *);
  (u "WPL", def_g_WPL) (* nmeatypes_get.py:1302 *);
  (u "XDR", def_g_XDR) (* nmeatypes_get.py:1309 *);
  (u "XTE", def_g_XTE) (* nmeatypes_get.py:1325 *);
  (u "XTR", def_g_XTR) (* nmeatypes_get.py:1333 *);
  (u "ZDA", def_g_ZDA) (* nmeatypes_get.py:1338 *);
  (u "ZDL", def_g_ZDL) (* nmeatypes_get.py:1346 *);
  (u "ZFO", def_g_ZFO) (* nmeatypes_get.py:1351 *);
  (u "ZTG", def_g_ZTG) (* nmeatypes_get.py:1356 *);
  (u "FOO", def_g_FOO) (* nmeatypes_get.py:1364 *);
  (u "GGAH", def_g_GGA) (* nmeatypes_get.py:1371 *);
  (u "GLLH", def_g_GLL) (* nmeatypes_get.py:1372 *);
  (u "GNSH", def_g_GNS) (* nmeatypes_get.py:1373 *);
  (u "GRSH", def_g_GRS) (* nmeatypes_get.py:1374 *);
  (u "GSAH", def_g_GSA) (* nmeatypes_get.py:1375 *);
  (u "GSTH", def_g_GST) (* nmeatypes_get.py:1376 *);
  (u "GSVH", def_g_GSV) (* nmeatypes_get.py:1377 *);
  (u "RMCH", def_g_RMC) (* nmeatypes_get.py:1378 *);
  (u "VTGH", def_g_VTG) (* nmeatypes_get.py:1379 *);
  (u "THS2", def_g_THS) (* nmeatypes_get.py:1380 *);
  (u "HPR", def_g_HPR) (* nmeatypes_get.py:1381 *);
  (u "HPR2", def_g_HPR2) (* nmeatypes_get.py:1391 *);
  (u "TRA2", def_g_TRA) (* nmeatypes_get.py:1401 *);
  (u "ROT2", def_g_ROT) (* nmeatypes_get.py:1402 *);
  (u "HPD", def_g_HPD) (* nmeatypes_get.py:1403 *)
].

(* nmeatypes_get_prop.py:52 *)
Definition def_gp_KLDS : pdict :=
    [(u "time", ASingle (u "TM"));
     (u "status", ASingle (u "CH"));
     (u "lat", ASingle (u "LA"));
     (u "NS", ASingle (u "LAD"));
     (u "lon", ASingle (u "LN"));
     (u "EW", ASingle (u "LND"));
     (u "sog", ASingle (u "DE"));
     (u "cog", ASingle (u "DE"));
     (u "dat", ASingle (u "DT"));
     (u "declination", ASingle (u "DE"));
     (u "dec_dir", ASingle (u "CH"));
     (u "fleet", ASingle (u "DE"));
     (u "senderid", ASingle (u "ST"));
     (u "senderstatus", ASingle (u "DE"));
     (u "reserved", ASingle (u "DE"))].

(* nmeatypes_get_prop.py:69 *)
Definition def_gp_KLSH : pdict :=
    [(u "lat", ASingle (u "LA"));
     (u "NS", ASingle (u "LAD"));
     (u "lon", ASingle (u "LN"));
     (u "EW", ASingle (u "LND"));
     (u "time", ASingle (u "TM"));
     (u "status", ASingle (u "CH"));
     (u "fleetId", ASingle (u "ST"));
     (u "deviceId", ASingle (u "ST"))].

(* nmeatypes_get_prop.py:79 *)
Definition def_gp_KNDS : pdict :=
    [(u "time", ASingle (u "TM"));
     (u "status", ASingle (u "CH"));
     (u "lat", ASingle (u "LA"));
     (u "NS", ASingle (u "LAD"));
     (u "lon", ASingle (u "LN"));
     (u "EW", ASingle (u "LND"));
     (u "sog", ASingle (u "DE"));
     (u "cog", ASingle (u "DE"));
     (u "date", ASingle (u "DT"));
     (u "declination", ASingle (u "DE"));
     (u "dec_dir", ASingle (u "CH"));
     (u "senderid", ASingle (u "ST"));
     (u "senderstatus", ASingle (u "DE"));
     (u "reserved", ASingle (u "DE"))].

(* nmeatypes_get_prop.py:95 *)
Definition def_gp_KNSH : pdict :=
    [(u "lat", ASingle (u "LA"));
     (u "NS", ASingle (u "LAD"));
     (u "lon", ASingle (u "LN"));
     (u "EW", ASingle (u "LND"));
     (u "time", ASingle (u "TM"));
     (u "status", ASingle (u "CH"));
     (u "senderid", ASingle (u "ST"))].

(* nmeatypes_get_prop.py:104 *)
Definition def_gp_KWDWPL : pdict :=
    [(u "time", ASingle (u "TM"));
     (u "status", ASingle (u "CH"));
     (u "lat", ASingle (u "LA"));
     (u "NS", ASingle (u "LAD"));
     (u "lon", ASingle (u "LN"));
     (u "EW", ASingle (u "LND"));
     (u "sog", ASingle (u "DE"));
     (u "cog", ASingle (u "DE"));
     (u "date", ASingle (u "DT"));
     (u "alt", ASingle (u "DE"));
     (u "wpt", ASingle (u "ST"));
     (u "ts", ASingle (u "ST"))].

(* nmeatypes_get_prop.py:121 *)
Definition def_gp_MGNWPL : pdict :=
    [(u "lat", ASingle (u "LA"));
     (u "NS", ASingle (u "LAD"));
     (u "lon", ASingle (u "LN"));
     (u "EW", ASingle (u "LND"));
     (u "alt", ASingle (u "DE"));
     (u "alt_unit", ASingle (u "CH"));
     (u "wpt", ASingle (u "ST"));
     (u "comment", ASingle (u "ST"));
     (u "icon", ASingle (u "ST"));
     (u "type", ASingle (u "ST"))].

(* nmeatypes_get_prop.py:136 *)
Definition def_gp_GRME : pdict :=
    [(u "HPE", ASingle (u "DE"));
     (u "HPEUnit", ASingle (u "CH"));
     (u "VPE", ASingle (u "DE"));
     (u "VPEUnit", ASingle (u "CH"));
     (u "EPE", ASingle (u "DE"));
     (u "EPEUnit", ASingle (u "CH"))].

(* nmeatypes_get_prop.py:144 *)
Definition def_gp_GRMF : pdict :=
    [(u "week", ASingle (u "IN"));
     (u "secs", ASingle (u "IN"));
     (u "date", ASingle (u "DT"));
     (u "time", ASingle (u "TM"));
     (u "leapsec", ASingle (u "IN"));
     (u "lat", ASingle (u "LA"));
     (u "NS", ASingle (u "LAD"));
     (u "lon", ASingle (u "LN"));
     (u "EW", ASingle (u "LND"));
     (u "mode", ASingle (u "CH"));
     (u "fix", ASingle (u "IN"));
     (u "spd", ASingle (u "DE"));
     (u "course", ASingle (u "IN"));
     (u "PDOP", ASingle (u "DE"));
     (u "TDOP", ASingle (u "DE"))].

(* nmeatypes_get_prop.py:161 *)
Definition def_gp_GRMH : pdict :=
    [(u "status", ASingle (u "CH"));
     (u "vspd", ASingle (u "DE"));
     (u "verr", ASingle (u "DE"));
     (u "spdtgt", ASingle (u "DE"));
     (u "spdwpt", ASingle (u "DE"));
     (u "height", ASingle (u "DE"));
     (u "trk", ASingle (u "DE"));
     (u "course", ASingle (u "DE"))].

(* nmeatypes_get_prop.py:171 *)
Definition def_gp_GRMM : pdict :=
    [(u "dtm", ASingle (u "ST"))].

(* nmeatypes_get_prop.py:174 *)
Definition def_gp_GRMT : pdict :=
    [(u "ver", ASingle (u "ST"));
     (u "ROMtest", ASingle (u "CH"));
     (u "rcvrtest", ASingle (u "CH"));
     (u "stortest", ASingle (u "CH"));
     (u "rtctest", ASingle (u "CH"));
     (u "osctest", ASingle (u "CH"));
     (u "datatest", ASingle (u "CH"));
     (u "temp", ASingle (u "DE"));
     (u "cfgdata", ASingle (u "CH"))].

(* nmeatypes_get_prop.py:185 *)
Definition def_gp_GRMV : pdict :=
    [(u "velE", ASingle (u "DE"));
     (u "velN", ASingle (u "DE"));
     (u "velZ", ASingle (u "DE"))].

(* nmeatypes_get_prop.py:190 *)
Definition def_gp_GRMZ : pdict :=
    [(u "alt", ASingle (u "DE"));
     (u "altUnit", ASingle (u "CH"));
     (u "fix", ASingle (u "IN"))].

(* nmeatypes_get_prop.py:195 *)
Definition def_gp_GRMB : pdict :=
    [(u "freq", ASingle (u "DE"));
     (u "bps", ASingle (u "IN"));
     (u "snr", ASingle (u "IN"));
     (u "quality", ASingle (u "IN"));
     (u "dist", ASingle (u "DE"));
     (u "status", ASingle (u "IN"));
     (u "fixsrc", ASingle (u "CH"));
     (u "mode", ASingle (u "CH"))].

(* nmeatypes_get_prop.py:208 *)
Definition def_gp_UBX00 : pdict :=
    [(u "msgId", ASingle (u "ST"));
     (u "time", ASingle (u "TM"));
     (u "lat", ASingle (u "LA"));
     (u "NS", ASingle (u "LAD"));
     (u "lon", ASingle (u "LN"));
     (u "EW", ASingle (u "LND"));
     (u "altRef", ASingle (u "DE"));
     (u "navStat", ASingle (u "ST"));
     (u "hAcc", ASingle (u "DE"));
     (u "vAcc", ASingle (u "DE"));
     (u "SOG", ASingle (u "DE"));
     (u "COG", ASingle (u "DE"));
     (u "vVel", ASingle (u "DE"));
     (u "diffAge", ASingle (u "DE"));
     (u "HDOP", ASingle (u "DE"));
     (u "VDOP", ASingle (u "DE"));
     (u "TDOP", ASingle (u "DE"));
     (u "numSVs", ASingle (u "IN"));
     (u "reserved", ASingle (u "IN"));
     (u "DR", ASingle (u "IN"))].

(* nmeatypes_get_prop.py:230 *)
Definition def_gp_UBX03 : pdict :=
    [(u "msgId", ASingle (u "ST"));
     (u "numSv", ASingle (u "IN"));
     (u "groupSV", AGroup (NStr (u "numSv")) [(u "svid", ASingle (u "IN"));
     (u "status", ASingle (u "CH"));
     (u "azi", ASingle (u "DE"));
     (u "ele", ASingle (u "DE"));
     (u "cno", ASingle (u "IN"));
     (u "lck", ASingle (u "IN"))])].

(* nmeatypes_get_prop.py:245 *)
Definition def_gp_UBX04 : pdict :=
    [(u "msgId", ASingle (u "ST"));
     (u "time", ASingle (u "TM"));
     (u "date", ASingle (u "DT"));
     (u "utcTow", ASingle (u "ST"));
     (u "utcWk", ASingle (u "ST"));
     (u "leapSec", ASingle (u "ST"));
     (u "clkBias", ASingle (u "DE"));
     (u "clkDrift", ASingle (u "DE"));
     (u "tpGran", ASingle (u "IN"))].

(* nmeatypes_get_prop.py:256 *)
Definition def_gp_UBX05 : pdict :=
    [(u "msgId", ASingle (u "ST"));
     (u "pulses", ASingle (u "IN"));
     (u "period", ASingle (u "IN"));
     (u "gyroMean", ASingle (u "IN"));
     (u "temperature", ASingle (u "DE"));
     (u "direction", ASingle (u "CH"));
     (u "pulseScaleCS", ASingle (u "IN"));
     (u "gyroScaleCS", ASingle (u "IN"));
     (u "gyroBiasCS", ASingle (u "IN"));
     (u "pulseScale", ASingle (u "DE"));
     (u "gyroBias", ASingle (u "DE"));
     (u "gyroScale", ASingle (u "DE"));
     (u "pulseScaleAcc", ASingle (u "IN"));
     (u "gyroBiasAcc", ASingle (u "IN"));
     (u "gyroScaleAcc", ASingle (u "IN"));
     (u "measUsed", ASingle (u "HX"))].

(* nmeatypes_get_prop.py:278 *)
Definition def_gp_ASHR : pdict :=
    [(u "utctime", ASingle (u "TM"));
     (u "trueHdg", ASingle (u "DE"));
     (u "trueHdgInd", ASingle (u "CH"));
     (u "roll", ASingle (u "DE"));
     (u "pitch", ASingle (u "DE"));
     (u "reserved", ASingle (u "ST"));
     (u "rollAcc", ASingle (u "DE"));
     (u "pitchAcc", ASingle (u "DE"));
     (u "hdgAcc", ASingle (u "DE"));
     (u "gnssQual", ASingle (u "IN"));
     (u "imuAlign", ASingle (u "IN"))].

(* nmeatypes_get_prop.py:291 *)
Definition def_gp_ASHRALR : pdict :=
    [(u "msgId", ASingle (u "ST"));
     (u "alarmCode", ASingle (u "IN"));
     (u "alarmSubcode", ASingle (u "IN"));
     (u "streamId", ASingle (u "CH"));
     (u "alarmCat", ASingle (u "ST"));
     (u "alarmLevel", ASingle (u "IN"));
     (u "desc", ASingle (u "ST"))].

(* nmeatypes_get_prop.py:300 *)
Definition def_gp_ASHRARA : pdict :=
    [(u "msgId", ASingle (u "ST"));
     (u "valid", ASingle (u "CH"));
     (u "utctime", ASingle (u "TM"));
     (u "hdgSpeed", ASingle (u "DE"));
     (u "pitchSpeed", ASingle (u "DE"));
     (u "rollSpeed", ASingle (u "DE"));
     (u "hdgAcc", ASingle (u "DE"));
     (u "pitchAcc", ASingle (u "DE"));
     (u "rollAcc", ASingle (u "DE"));
     (u "reserved", ASingle (u "ST"))].

(* nmeatypes_get_prop.py:312 *)
Definition def_gp_ASHRARR : pdict :=
    [(u "msgId", ASingle (u "ST"));
     (u "vectNum", ASingle (u "IN"));
     (u "vectMode", ASingle (u "IN"));
     (u "sip", ASingle (u "IN"));
     (u "utctime", ASingle (u "TM"));
     (u "antEcefX", ASingle (u "DE"));
     (u "antEcefY", ASingle (u "DE"));
     (u "antEcefZ", ASingle (u "DE"));
     (u "coord1std", ASingle (u "DE"));
     (u "coord2std", ASingle (u "DE"));
     (u "coord3std", ASingle (u "DE"));
     (u "coord12corr", ASingle (u "DE"));
     (u "coord13corr", ASingle (u "DE"));
     (u "coord23corr", ASingle (u "DE"));
     (u "refId", ASingle (u "CH"));
     (u "vectFrame", ASingle (u "IN"));
     (u "vectOpt", ASingle (u "IN"));
     (u "clkAssum", ASingle (u "IN"))].

(* nmeatypes_get_prop.py:332 *)
Definition def_gp_ASHRATT : pdict :=
    [(u "msgId", ASingle (u "ST"));
     (u "weekTime", ASingle (u "DE"));
     (u "trueHdg", ASingle (u "DE"));
     (u "pitch", ASingle (u "DE"));
     (u "roll", ASingle (u "DE"));
     (u "carrierRmsErr", ASingle (u "DE"));
     (u "baselineRmsErr", ASingle (u "DE"));
     (u "ambiguity", ASingle (u "IN"))].

(* nmeatypes_get_prop.py:342 *)
Definition def_gp_ASHRBTS : pdict :=
    [(u "msgId", ASingle (u "ST"));
     (u "portgroup", AGroup (NInt (3)) [(u "port", ASingle (u "CH"));
     (u "connected", ASingle (u "IN"));
     (u "name", ASingle (u "ST"));
     (u "addr", ASingle (u "ST"));
     (u "linkQual", ASingle (u "IN"))])].

(* nmeatypes_get_prop.py:355 *)
Definition def_gp_ASHRCAP : pdict :=
    [(u "msgId", ASingle (u "ST"));
     (u "name", ASingle (u "ST"));
     (u "L1Noffset", ASingle (u "DE"));
     (u "L1Eoffset", ASingle (u "DE"));
     (u "L1Voffset", ASingle (u "DE"));
     (u "L2Noffset", ASingle (u "DE"));
     (u "L2Eoffset", ASingle (u "DE"));
     (u "L2Voffset", ASingle (u "DE"))].

(* nmeatypes_get_prop.py:365 *)
Definition def_gp_ASHRCPA : pdict :=
    [(u "msgId", ASingle (u "ST"));
     (u "antHeight", ASingle (u "DE"));
     (u "antRadius", ASingle (u "DE"));
     (u "vertOffset", ASingle (u "DE"));
     (u "horAzi", ASingle (u "DE"));
     (u "horDist", ASingle (u "DE"));
     (u "reserved1", ASingle (u "ST"));
     (u "reserved2", ASingle (u "ST"));
     (u "reserved3", ASingle (u "ST"));
     (u "reserved4", ASingle (u "ST"))].

(* nmeatypes_get_prop.py:377 *)
Definition def_gp_ASHRCPO : pdict :=
    [(u "msgId", ASingle (u "ST"));
     (u "lat", ASingle (u "LA"));
     (u "NS", ASingle (u "LAD"));
     (u "lon", ASingle (u "LN"));
     (u "EW", ASingle (u "LND"));
     (u "height", ASingle (u "DE"))].

(* nmeatypes_get_prop.py:385 *)
Definition def_gp_ASHRDDM : pdict :=
    [(u "msgId", ASingle (u "ST"));
     (u "corrPort", ASingle (u "CH"));
     (u "msgTransport", ASingle (u "ST"));
     (u "msgIdent", ASingle (u "ST"));
     (u "count", ASingle (u "IN"));
     (u "baseId", ASingle (u "ST"));
     (u "timeLag", ASingle (u "DE"));
     (u "corrAge", ASingle (u "DE"));
     (u "attr", ASingle (u "ST"))].

(* nmeatypes_get_prop.py:396 *)
Definition def_gp_ASHRDDS : pdict :=
    [(u "msgId", ASingle (u "ST"));
     (u "diffDecodeNum", ASingle (u "IN"));
     (u "timeTag", ASingle (u "TM"));
     (u "numMsgDecoded", ASingle (u "IN"));
     (u "port", ASingle (u "CH"));
     (u "prot", ASingle (u "ST"));
     (u "timeWindow", ASingle (u "IN"));
     (u "percLinkQual", ASingle (u "IN"));
     (u "percDeselectInfo", ASingle (u "IN"));
     (u "percCrc", ASingle (u "IN"));
     (u "latencyStd", ASingle (u "IN"));
     (u "latencyMean", ASingle (u "IN"));
     (u "epochIntMean", ASingle (u "IN"));
     (u "epochIntMin", ASingle (u "IN"));
     (u "numMsgDetected", ASingle (u "IN"));
     (u "msgType", ASingle (u "ST"));
     (u "lastMsgInt", ASingle (u "DE"));
     (u "lastMsgAge", ASingle (u "DE"))].

(* nmeatypes_get_prop.py:416 *)
Definition def_gp_ASHRHPR : pdict :=
    [(u "msgId", ASingle (u "ST"));
     (u "utctime", ASingle (u "TM"));
     (u "trueHdg", ASingle (u "DE"));
     (u "pitch", ASingle (u "DE"));
     (u "roll", ASingle (u "DE"));
     (u "carrierRmsErr", ASingle (u "DE"));
     (u "baselineRmsErr", ASingle (u "DE"));
     (u "ambiguity", ASingle (u "IN"));
     (u "attStatus", ASingle (u "IN"));
     (u "antBaseline", ASingle (u "ST"));
     (u "PDOP", ASingle (u "DE"))].

(* nmeatypes_get_prop.py:429 *)
Definition def_gp_ASHRLTN : pdict :=
    [(u "msgId", ASingle (u "ST"));
     (u "latency", ASingle (u "DE"))].

(* nmeatypes_get_prop.py:433 *)
Definition def_gp_ASHRMDM : pdict :=
    [(u "msgId", ASingle (u "ST"));
     (u "port", ASingle (u "ST"));
     (u "baud", ASingle (u "IN"));
     (u "state", ASingle (u "ST"));
     (u "powerMode", ASingle (u "ST"));
     (u "pinCode", ASingle (u "ST"));
     (u "protocol", ASingle (u "IN"));
     (u "csdMode", ASingle (u "IN"));
     (u "accessPoint", ASingle (u "ST"));
     (u "login", ASingle (u "ST"));
     (u "password", ASingle (u "ST"));
     (u "phoneNum", ASingle (u "ST"));
     (u "autoDial", ASingle (u "CH"));
     (u "maxRedial", ASingle (u "IN"));
     (u "model", ASingle (u "ST"));
     (u "selMode", ASingle (u "IN"));
     (u "gsmAnt", ASingle (u "ST"))].

(* nmeatypes_get_prop.py:452 *)
Definition def_gp_ASHRPBN : pdict :=
    [(u "msgId", ASingle (u "ST"));
     (u "gpsWeek", ASingle (u "DE"));
     (u "siteName", ASingle (u "ST"));
     (u "navX", ASingle (u "DE"));
     (u "navY", ASingle (u "DE"));
     (u "navT", ASingle (u "DE"));
     (u "navXdot", ASingle (u "DE"));
     (u "navYdot", ASingle (u "DE"));
     (u "navTdot", ASingle (u "DE"));
     (u "PDOP", ASingle (u "DE"))].

(* nmeatypes_get_prop.py:464 *)
Definition def_gp_ASHRPOS : pdict :=
    [(u "msgId", ASingle (u "ST"));
     (u "solnType", ASingle (u "IN"));
     (u "sip", ASingle (u "IN"));
     (u "utctime", ASingle (u "TM"));
     (u "lat", ASingle (u "LA"));
     (u "NS", ASingle (u "LAD"));
     (u "lon", ASingle (u "LN"));
     (u "EW", ASingle (u "LND"));
     (u "alt", ASingle (u "DE"));
     (u "corrAge", ASingle (u "DE"));
     (u "trueTrk", ASingle (u "DE"));
     (u "sog", ASingle (u "DE"));
     (u "vertVel", ASingle (u "DE"));
     (u "PDOP", ASingle (u "DE"));
     (u "HDOP", ASingle (u "DE"));
     (u "VDOP", ASingle (u "DE"));
     (u "TDOP", ASingle (u "DE"));
     (u "baseId", ASingle (u "ST"))].

(* nmeatypes_get_prop.py:484 *)
Definition def_gp_ASHRPTT : pdict :=
    [(u "msgId", ASingle (u "ST"));
     (u "dow", ASingle (u "IN"));
     (u "timeTag", ASingle (u "ST"))].

(* nmeatypes_get_prop.py:489 *)
Definition def_gp_ASHRPWR : pdict :=
    [(u "msgId", ASingle (u "ST"));
     (u "powerSource", ASingle (u "IN"));
     (u "voltsOut", ASingle (u "DE"));
     (u "reserved1", ASingle (u "ST"));
     (u "percRemaining", ASingle (u "IN"));
     (u "reserved2", ASingle (u "ST"));
     (u "voltsIn", ASingle (u "DE"));
     (u "chargeStatus", ASingle (u "IN"));
     (u "reserved3", ASingle (u "ST"));
     (u "tempInt", ASingle (u "DE"));
     (u "tempBatt", ASingle (u "DE"))].

(* nmeatypes_get_prop.py:502 *)
Definition def_gp_ASHRRCS : pdict :=
    [(u "msgId", ASingle (u "ST"));
     (u "recordStatus", ASingle (u "CH"));
     (u "memory", ASingle (u "IN"));
     (u "fileName", ASingle (u "ST"));
     (u "recordRate", ASingle (u "IN"));
     (u "occupationType", ASingle (u "IN"));
     (u "occupationState", ASingle (u "IN"));
     (u "occupationName", ASingle (u "ST"))].

(* nmeatypes_get_prop.py:512 *)
Definition def_gp_ASHRSBD : pdict :=
    [(u "msgId", ASingle (u "ST"));
     (u "siv", ASingle (u "IN"));
     (u "satgroup", AGroup (NStr (u "siv")) [(u "prn", ASingle (u "IN"));
     (u "azi", ASingle (u "DE"));
     (u "ele", ASingle (u "DE"));
     (u "snrB1", ASingle (u "DE"));
     (u "snrB2", ASingle (u "DE"));
     (u "snrB3", ASingle (u "DE"));
     (u "usageStatus", ASingle (u "ST"));
     (u "corrStatus", ASingle (u "ST"))])].

(* nmeatypes_get_prop.py:529 *)
Definition def_gp_ASHRSGA : pdict :=
    [(u "msgId", ASingle (u "ST"));
     (u "siv", ASingle (u "IN"));
     (u "satgroup", AGroup (NStr (u "siv")) [(u "prn", ASingle (u "IN"));
     (u "azi", ASingle (u "DE"));
     (u "ele", ASingle (u "DE"));
     (u "snrE1", ASingle (u "DE"));
     (u "snrE5b", ASingle (u "DE"));
     (u "snrE5a", ASingle (u "DE"));
     (u "usageStatus", ASingle (u "ST"));
     (u "corrStatus", ASingle (u "ST"))])].

(* nmeatypes_get_prop.py:546 *)
Definition def_gp_ASHRSGL : pdict :=
    [(u "msgId", ASingle (u "ST"));
     (u "siv", ASingle (u "IN"));
     (u "satgroup", AGroup (NStr (u "siv")) [(u "prn", ASingle (u "IN"));
     (u "azi", ASingle (u "DE"));
     (u "ele", ASingle (u "DE"));
     (u "snrL1", ASingle (u "DE"));
     (u "snrL2", ASingle (u "DE"));
     (u "snrL3", ASingle (u "DE"));
     (u "usageStatus", ASingle (u "ST"));
     (u "corrStatus", ASingle (u "ST"))])].

(* nmeatypes_get_prop.py:563 *)
Definition def_gp_ASHRSGO : pdict :=
    [(u "msgId", ASingle (u "ST"));
     (u "siv", ASingle (u "IN"));
     (u "satgroup", AGroup (NStr (u "siv")) [(u "prn", ASingle (u "IN"));
     (u "azi", ASingle (u "DE"));
     (u "ele", ASingle (u "DE"));
     (u "snrE1", ASingle (u "DE"));
     (u "snrE5b", ASingle (u "DE"));
     (u "snrE5a", ASingle (u "DE"));
     (u "snrE6", ASingle (u "DE"));
     (u "reserved", ASingle (u "ST"));
     (u "usageStatus", ASingle (u "ST"));
     (u "corrStatus", ASingle (u "ST"))])].

(* nmeatypes_get_prop.py:582 *)
Definition def_gp_ASHRSGP : pdict :=
    [(u "msgId", ASingle (u "ST"));
     (u "siv", ASingle (u "IN"));
     (u "satgroup", AGroup (NStr (u "siv")) [(u "prn", ASingle (u "IN"));
     (u "azi", ASingle (u "DE"));
     (u "ele", ASingle (u "DE"));
     (u "snrL1", ASingle (u "DE"));
     (u "snrL2", ASingle (u "DE"));
     (u "snrL3", ASingle (u "DE"));
     (u "usageStatus", ASingle (u "ST"));
     (u "corrStatus", ASingle (u "ST"))])].

(* nmeatypes_get_prop.py:599 *)
Definition def_gp_ASHRSIR : pdict :=
    [(u "msgId", ASingle (u "ST"));
     (u "siv", ASingle (u "IN"));
     (u "satgroup", AGroup (NStr (u "siv")) [(u "prn", ASingle (u "IN"));
     (u "azi", ASingle (u "DE"));
     (u "ele", ASingle (u "DE"));
     (u "reserved2", ASingle (u "ST"));
     (u "reserved3", ASingle (u "ST"));
     (u "snrL5", ASingle (u "DE"));
     (u "usageStatus", ASingle (u "ST"));
     (u "corrStatus", ASingle (u "ST"))])].

(* nmeatypes_get_prop.py:616 *)
Definition def_gp_ASHRSLB : pdict :=
    [(u "msgId", ASingle (u "ST"));
     (u "siv", ASingle (u "IN"));
     (u "satgroup", AGroup (NStr (u "siv")) [(u "satNum", ASingle (u "IN"));
     (u "contTrkInt", ASingle (u "DE"));
     (u "azi", ASingle (u "DE"));
     (u "ele", ASingle (u "DE"));
     (u "snr", ASingle (u "DE"))])].

(* nmeatypes_get_prop.py:630 *)
Definition def_gp_ASHRSQZ : pdict :=
    [(u "msgId", ASingle (u "ST"));
     (u "siv", ASingle (u "IN"));
     (u "satgroup", AGroup (NStr (u "siv")) [(u "prn", ASingle (u "IN"));
     (u "azi", ASingle (u "DE"));
     (u "ele", ASingle (u "DE"));
     (u "snrL1", ASingle (u "DE"));
     (u "snrL2", ASingle (u "DE"));
     (u "snrL3", ASingle (u "DE"));
     (u "usageStatus", ASingle (u "ST"));
     (u "corrStatus", ASingle (u "ST"))])].

(* nmeatypes_get_prop.py:647 *)
Definition def_gp_ASHRSSB : pdict :=
    [(u "msgId", ASingle (u "ST"));
     (u "siv", ASingle (u "IN"));
     (u "satgroup", AGroup (NStr (u "siv")) [(u "prn", ASingle (u "IN"));
     (u "azi", ASingle (u "DE"));
     (u "ele", ASingle (u "DE"));
     (u "snrL1", ASingle (u "DE"));
     (u "reserved", ASingle (u "ST"));
     (u "snrL5", ASingle (u "DE"));
     (u "usageStatus", ASingle (u "ST"));
     (u "corrStatus", ASingle (u "ST"))])].

(* nmeatypes_get_prop.py:664 *)
Definition def_gp_ASHRTEM : pdict :=
    [(u "msgId", ASingle (u "ST"));
     (u "temp", ASingle (u "DE"))].

(* nmeatypes_get_prop.py:668 *)
Definition def_gp_ASHRTHS : pdict :=
    [(u "msgId", ASingle (u "ST"));
     (u "lastComputedHdg", ASingle (u "DE"));
     (u "solnStatus", ASingle (u "CH"))].

(* nmeatypes_get_prop.py:673 *)
Definition def_gp_ASHRTTT : pdict :=
    [(u "msgId", ASingle (u "ST"));
     (u "dow", ASingle (u "IN"));
     (u "timeTag", ASingle (u "TM"))].

(* nmeatypes_get_prop.py:678 *)
Definition def_gp_ASHRVCR : pdict :=
    [(u "msgId", ASingle (u "ST"));
     (u "baselineNum", ASingle (u "IN"));
     (u "baselineMode", ASingle (u "IN"));
     (u "sip", ASingle (u "IN"));
     (u "utctime", ASingle (u "TM"));
     (u "antEcefX", ASingle (u "DE"));
     (u "antEcefY", ASingle (u "DE"));
     (u "antEcefZ", ASingle (u "DE"));
     (u "coord1std", ASingle (u "DE"));
     (u "coord2std", ASingle (u "DE"));
     (u "coord3std", ASingle (u "DE"));
     (u "coord12corr", ASingle (u "DE"));
     (u "coord13corr", ASingle (u "DE"));
     (u "coord23corr", ASingle (u "DE"));
     (u "baseId", ASingle (u "ST"));
     (u "baselineCoordId", ASingle (u "ST"))].

(* nmeatypes_get_prop.py:696 *)
Definition def_gp_ASHRVCT : pdict :=
    [(u "msgId", ASingle (u "ST"));
     (u "baselineMode", ASingle (u "IN"));
     (u "sip", ASingle (u "IN"));
     (u "utctime", ASingle (u "TM"));
     (u "antEcefX", ASingle (u "DE"));
     (u "antEcefY", ASingle (u "DE"));
     (u "antEcefZ", ASingle (u "DE"));
     (u "coord1std", ASingle (u "DE"));
     (u "coord2std", ASingle (u "DE"));
     (u "coord3std", ASingle (u "DE"));
     (u "coord12corr", ASingle (u "DE"));
     (u "coord13corr", ASingle (u "DE"));
     (u "coord23corr", ASingle (u "DE"));
     (u "baseId", ASingle (u "ST"));
     (u "baselineCoordId", ASingle (u "ST"));
     (u "baselineNum", ASingle (u "IN"));
     (u "vrs", ASingle (u "IN"));
     (u "staticModeAssumption", ASingle (u "IN"))].

(* nmeatypes_get_prop.py:716 *)
Definition def_gp_ASHRVEL : pdict :=
    [(u "msgId", ASingle (u "ST"));
     (u "velE", ASingle (u "DE"));
     (u "velN", ASingle (u "DE"));
     (u "velV", ASingle (u "DE"));
     (u "velERmsErr", ASingle (u "DE"));
     (u "velNRmsErr", ASingle (u "DE"));
     (u "velVRmsErr", ASingle (u "DE"));
     (u "velSmoothInt", ASingle (u "IN"))].

(* nmeatypes_get_prop.py:726 *)
Definition def_gp_FUGDP : pdict :=
    [(u "type", ASingle (u "ST"));
     (u "utctime", ASingle (u "TM"));
     (u "lat", ASingle (u "LA"));
     (u "NS", ASingle (u "LAD"));
     (u "lon", ASingle (u "LN"));
     (u "EW", ASingle (u "LND"));
     (u "siv", ASingle (u "IN"));
     (u "dpvoaQual", ASingle (u "ST"));
     (u "dgnssMode", ASingle (u "ST"));
     (u "smajErr", ASingle (u "DE"));
     (u "sminErr", ASingle (u "DE"));
     (u "dirErr", ASingle (u "IN"))].

(* nmeatypes_get_prop.py:740 *)
Definition def_gp_GPPADV110 : pdict :=
    [(u "msgId", ASingle (u "ST"));
     (u "lat", ASingle (u "DE"));
     (u "lon", ASingle (u "DE"));
     (u "height", ASingle (u "DE"));
     (u "ele", ASingle (u "DE"));
     (u "azi", ASingle (u "DE"))].

(* nmeatypes_get_prop.py:748 *)
Definition def_gp_GPPADV120 : pdict :=
    [(u "msgId", ASingle (u "ST"));
     (u "satgrp", AGroup (NInt (2)) [(u "prn", ASingle (u "IN"));
     (u "ele", ASingle (u "DE"));
     (u "azi", ASingle (u "DE"))])].

(* nmeatypes_get_prop.py:759 *)
Definition def_gp_TNLAVR : pdict :=
    [(u "msgId", ASingle (u "ST"));
     (u "utctime", ASingle (u "TM"));
     (u "yaw", ASingle (u "DE"));
     (u "yawc", ASingle (u "ST"));
     (u "tilt", ASingle (u "DE"));
     (u "tiltc", ASingle (u "ST"));
     (u "roll", ASingle (u "DE"));
     (u "rollc", ASingle (u "ST"));
     (u "range", ASingle (u "DE"));
     (u "gpsQual", ASingle (u "IN"));
     (u "PDOP", ASingle (u "DE"));
     (u "sip", ASingle (u "IN"))].

(* nmeatypes_get_prop.py:773 *)
Definition def_gp_TNLBPQ : pdict :=
    [(u "msgId", ASingle (u "ST"));
     (u "utctime", ASingle (u "TM"));
     (u "utcdate", ASingle (u "DT"));
     (u "lat", ASingle (u "LA"));
     (u "NS", ASingle (u "LAD"));
     (u "lon", ASingle (u "LN"));
     (u "EW", ASingle (u "LND"));
     (u "height", ASingle (u "ST"));
     (u "hunit", ASingle (u "CH"));
     (u "gpsQual", ASingle (u "IN"))].

(* nmeatypes_get_prop.py:785 *)
Definition def_gp_TNLDG : pdict :=
    [(u "msgId", ASingle (u "ST"));
     (u "strength", ASingle (u "DE"));
     (u "snr", ASingle (u "DE"));
     (u "freq", ASingle (u "DE"));
     (u "bitRate", ASingle (u "IN"));
     (u "chan", ASingle (u "IN"));
     (u "trkStatus", ASingle (u "CH"));
     (u "trkPerf", ASingle (u "IN"))].

(* nmeatypes_get_prop.py:795 *)
Definition def_gp_TNLEVT : pdict :=
    [(u "msgId", ASingle (u "ST"));
     (u "utctime", ASingle (u "TM"));
     (u "port", ASingle (u "IN"));
     (u "numEvents", ASingle (u "IN"));
     (u "wno", ASingle (u "IN"));
     (u "dow", ASingle (u "IN"));
     (u "leaps", ASingle (u "IN"))].

(* nmeatypes_get_prop.py:804 *)
Definition def_gp_TNLGGK : pdict :=
    [(u "msgId", ASingle (u "ST"));
     (u "utctime", ASingle (u "TM"));
     (u "utcdate", ASingle (u "DT"));
     (u "lat", ASingle (u "LA"));
     (u "NS", ASingle (u "LAD"));
     (u "lon", ASingle (u "LN"));
     (u "EW", ASingle (u "LND"));
     (u "gpsQual", ASingle (u "IN"));
     (u "sip", ASingle (u "IN"));
     (u "DOP", ASingle (u "DE"));
     (u "height", ASingle (u "ST"));
     (u "hunit", ASingle (u "CH"))].

(* nmeatypes_get_prop.py:818 *)
Definition def_gp_TNLGGKx : pdict :=
    [(u "msgId", ASingle (u "ST"));
     (u "utctime", ASingle (u "TM"));
     (u "utcdate", ASingle (u "DT"));
     (u "lat", ASingle (u "LA"));
     (u "NS", ASingle (u "LAD"));
     (u "lon", ASingle (u "LN"));
     (u "EW", ASingle (u "LND"));
     (u "posType", ASingle (u "IN"));
     (u "sip", ASingle (u "IN"));
     (u "PDOP", ASingle (u "DE"));
     (u "height", ASingle (u "DE"));
     (u "numExt", ASingle (u "IN"));
     (u "sigmaE", ASingle (u "DE"));
     (u "sigmaN", ASingle (u "DE"));
     (u "sigmaV", ASingle (u "DE"));
     (u "propogationAge", ASingle (u "DE"))].

(* nmeatypes_get_prop.py:836 *)
Definition def_gp_TNLPJK : pdict :=
    [(u "msgId", ASingle (u "ST"));
     (u "utctime", ASingle (u "TM"));
     (u "utcdate", ASingle (u "DT"));
     (u "northing", ASingle (u "DE"));
     (u "nunit", ASingle (u "CH"));
     (u "easting", ASingle (u "DE"));
     (u "eunit", ASingle (u "CH"));
     (u "gpsQual", ASingle (u "IN"));
     (u "sip", ASingle (u "IN"));
     (u "DOP", ASingle (u "DE"));
     (u "height", ASingle (u "ST"));
     (u "hunit", ASingle (u "CH"))].

(* nmeatypes_get_prop.py:850 *)
Definition def_gp_TNLPJT : pdict :=
    [(u "msgId", ASingle (u "ST"));
     (u "coordName", ASingle (u "ST"));
     (u "projName", ASingle (u "ST"))].

(* nmeatypes_get_prop.py:855 *)
Definition def_gp_TNLREX : pdict :=
    [(u "msgId", ASingle (u "ST"));
     (u "utctime", ASingle (u "TM"));
     (u "constUsed", ASingle (u "ST"));
     (u "sip", ASingle (u "IN"));
     (u "lat", ASingle (u "LA"));
     (u "NS", ASingle (u "LAD"));
     (u "lon", ASingle (u "LN"));
     (u "EW", ASingle (u "LND"));
     (u "alt", ASingle (u "DE"));
     (u "latSigmaErr", ASingle (u "DE"));
     (u "lonSigmaErr", ASingle (u "DE"));
     (u "heightSigmaErr", ASingle (u "DE"));
     (u "vectE", ASingle (u "DE"));
     (u "vectN", ASingle (u "DE"));
     (u "vectV", ASingle (u "DE"));
     (u "vectESigmaErr", ASingle (u "DE"));
     (u "vectNSigmaErr", ASingle (u "DE"));
     (u "vectVSigmaErr", ASingle (u "DE"));
     (u "corrSource", ASingle (u "ST"))].

(* nmeatypes_get_prop.py:876 *)
Definition def_gp_TNLVGK : pdict :=
    [(u "msgId", ASingle (u "ST"));
     (u "utctime", ASingle (u "TM"));
     (u "utcdate", ASingle (u "DM"));
     (u "vectE", ASingle (u "DE"));
     (u "vectN", ASingle (u "DE"));
     (u "vectV", ASingle (u "DE"));
     (u "gpsQual", ASingle (u "IN"));
     (u "sip", ASingle (u "IN"));
     (u "DOP", ASingle (u "DE"));
     (u "vunit", ASingle (u "CH"))].

(* nmeatypes_get_prop.py:888 *)
Definition def_gp_TNLVHD : pdict :=
    [(u "msgId", ASingle (u "ST"));
     (u "utctime", ASingle (u "TM"));
     (u "utcdate", ASingle (u "DM"));
     (u "azi", ASingle (u "DE"));
     (u "aziRate", ASingle (u "DE"));
     (u "ele", ASingle (u "DE"));
     (u "eleRate", ASingle (u "DE"));
     (u "range", ASingle (u "DE"));
     (u "rangeRate", ASingle (u "DE"));
     (u "gpsQual", ASingle (u "IN"));
     (u "sip", ASingle (u "IN"));
     (u "PDOP", ASingle (u "DE"));
     (u "unit", ASingle (u "CH"))].

(* nmeatypes_get_prop.py:907 *)
Definition def_gp_FECGPATT : pdict :=
    [(u "msgId", ASingle (u "ST"));
     (u "yaw", ASingle (u "DE"));
     (u "pitch", ASingle (u "DE"));
     (u "roll", ASingle (u "DE"))].

(* nmeatypes_get_prop.py:913 *)
Definition def_gp_FECGPHVE : pdict :=
    [(u "msgId", ASingle (u "ST"));
     (u "heave", ASingle (u "DE"));
     (u "status", ASingle (u "CH"))].

(* nmeatypes_get_prop.py:922 *)
Definition def_gp_LSR : pdict :=
    [(u "msgType", ASingle (u "ST"));
     (u "value", ASingle (u "IN"));
     (u "response", ASingle (u "ST"))].

(* nmeatypes_get_prop.py:927 *)
Definition def_gp_LSVD : pdict :=
    [(u "velE", ASingle (u "DE"));
     (u "velN", ASingle (u "DE"));
     (u "velD", ASingle (u "DE"));
     (u "velEdev", ASingle (u "DE"));
     (u "velNdev", ASingle (u "DE"));
     (u "velDdev", ASingle (u "DE"))].

(* nmeatypes_get_prop.py:935 *)
Definition def_gp_INVMINR : pdict :=
    [(u "status", ASingle (u "CH"))].

(* nmeatypes_get_prop.py:938 *)
Definition def_gp_INVMSTR : pdict :=
    [(u "value", ASingle (u "IN"))].

(* nmeatypes_get_prop.py:941 *)
Definition def_gp_INVMSLOPE : pdict :=
    [(u "slope", ASingle (u "DE"));
     (u "altDiff", ASingle (u "DE"));
     (u "moveDist", ASingle (u "DE"));
     (u "slopeAccu", ASingle (u "DE"));
     (u "altDiffAccu", ASingle (u "DE"));
     (u "moveDistAccu", ASingle (u "DE"))].

(* nmeatypes_get_prop.py:949 *)
Definition def_gp_INVMIMU : pdict :=
    [(u "timeSecond", ASingle (u "DE"));
     (u "accelX", ASingle (u "DE"));
     (u "accelY", ASingle (u "DE"));
     (u "accelZ", ASingle (u "DE"));
     (u "gyroX", ASingle (u "DE"));
     (u "gyroY", ASingle (u "DE"));
     (u "gyroZ", ASingle (u "DE"))].

(* nmeatypes_get_prop.py:958 *)
Definition def_gp_INVMATTIT : pdict :=
    [(u "roll", ASingle (u "DE"));
     (u "pitch", ASingle (u "DE"));
     (u "yaw", ASingle (u "DE"))].

(* nmeatypes_get_prop.py:968 *)
Definition def_gp_AIR001 : pdict :=
    [(u "commandid", ASingle (u "IN"));
     (u "result", ASingle (u "IN"))].

(* nmeatypes_get_prop.py:972 *)
Definition def_gp_AIR010 : pdict :=
    [(u "type", ASingle (u "IN"));
     (u "subsystem", ASingle (u "IN"));
     (u "wno", ASingle (u "IN"));
     (u "tow", ASingle (u "IN"))].

(* nmeatypes_get_prop.py:978 *)
Definition def_gp_AIR051 : pdict :=
    [(u "time", ASingle (u "IN"))].

(* nmeatypes_get_prop.py:981 *)
Definition def_gp_AIR059 : pdict :=
    [(u "minsnr", ASingle (u "IN"))].

(* nmeatypes_get_prop.py:984 *)
Definition def_gp_AIR063 : pdict :=
    [(u "type", ASingle (u "IN"));
     (u "rate", ASingle (u "IN"))].

(* nmeatypes_get_prop.py:988 *)
Definition def_gp_AIR067 : pdict :=
    [(u "gpsEnabled", ASingle (u "IN"));
     (u "glonassEnabled", ASingle (u "IN"));
     (u "galileoEnabled", ASingle (u "IN"));
     (u "bdsEnabled", ASingle (u "IN"));
     (u "qzssEnabled", ASingle (u "IN"));
     (u "navicEnabled", ASingle (u "IN"))].

(* nmeatypes_get_prop.py:996 *)
Definition def_gp_AIR071 : pdict :=
    [(u "speedThreshold", ASingle (u "DE"))].

(* nmeatypes_get_prop.py:999 *)
Definition def_gp_AIR073 : pdict :=
    [(u "degree", ASingle (u "IN"))].

(* nmeatypes_get_prop.py:1002 *)
Definition def_gp_AIR075 : pdict :=
    [(u "enabled", ASingle (u "IN"))].

(* nmeatypes_get_prop.py:1005 *)
Definition def_gp_AIR081 : pdict :=
    [(u "navMode", ASingle (u "IN"))].

(* nmeatypes_get_prop.py:1008 *)
Definition def_gp_AIR087 : pdict :=
    [(u "status", ASingle (u "IN"))].

(* nmeatypes_get_prop.py:1011 *)
Definition def_gp_AIR101 : pdict :=
    [(u "nmeaMode", ASingle (u "IN"));
     (u "reserved", ASingle (u "IN"))].

(* nmeatypes_get_prop.py:1015 *)
Definition def_gp_AIR105 : pdict :=
    [(u "dualBandEnabled", ASingle (u "IN"))].

(* nmeatypes_get_prop.py:1018 *)
Definition def_gp_AIR391 : pdict :=
    [(u "cmdType", ASingle (u "IN"))].

(* nmeatypes_get_prop.py:1021 *)
Definition def_gp_AIR401 : pdict :=
    [(u "mode", ASingle (u "IN"))].

(* nmeatypes_get_prop.py:1024 *)
Definition def_gp_AIR411 : pdict :=
    [(u "enabled", ASingle (u "IN"))].

(* nmeatypes_get_prop.py:1027 *)
Definition def_gp_AIR421 : pdict :=
    [(u "enabled", ASingle (u "IN"))].

(* nmeatypes_get_prop.py:1030 *)
Definition def_gp_AIR433 : pdict :=
    [(u "mode", ASingle (u "IN"))].

(* nmeatypes_get_prop.py:1033 *)
Definition def_gp_AIR435 : pdict :=
    [(u "enabled", ASingle (u "IN"))].

(* nmeatypes_get_prop.py:1036 *)
Definition def_gp_AIR436 : pdict :=
    [(u "enabled", ASingle (u "IN"))].

(* nmeatypes_get_prop.py:1039 *)
Definition def_gp_AIR437 : pdict :=
    [(u "enabled", ASingle (u "IN"))].

(* nmeatypes_get_prop.py:1040 *)
Definition def_gp_AIR491 : pdict :=
    [(u "enabled", ASingle (u "IN"))].

(* nmeatypes_get_prop.py:1043 *)
Definition def_gp_AIR650 : pdict :=
    [(u "second", ASingle (u "IN"))].

(* nmeatypes_get_prop.py:1046 *)
Definition def_gp_AIR865 : pdict :=
    [(u "baudrate", ASingle (u "IN"))].

(* nmeatypes_get_prop.py:1049 *)
Definition def_gp_AIR867 : pdict :=
    [(u "flowControl", ASingle (u "IN"))].

(* nmeatypes_get_prop.py:1052 *)
Definition def_gp_AIR6011 : pdict :=
    [(u "type", ASingle (u "IN"));
     (u "rate", ASingle (u "IN"))].

(* nmeatypes_get_prop.py:1056 *)
Definition def_gp_AIRSPF : pdict :=
    [(u "status", ASingle (u "IN"))].

(* nmeatypes_get_prop.py:1059 *)
Definition def_gp_AIRSPF5 : pdict :=
    [(u "status", ASingle (u "IN"))].

(* nmeatypes_get_prop.py:1072 *)
Definition def_gp_QTMACK : pdict :=
    [(u "status", ASingle (u "QS"))].

(* nmeatypes_get_prop.py:1075 *)
Definition def_gp_QTMNAK : pdict :=
    [(u "status", ASingle (u "QS"));
     (u "errcode", ASingle (u "IN"))].

(* nmeatypes_get_prop.py:1079 *)
Definition def_gp_QTMANTENNASTATUS : pdict :=
    [(u "msgver", ASingle (u "IN"));
     (u "antennastatus", ASingle (u "IN"));
     (u "antennapowerind", ASingle (u "IN"))].

(* nmeatypes_get_prop.py:1084 *)
Definition def_gp_QTMCFGAIC : pdict :=
    [(u "status", ASingle (u "QS"));
     (u "state", ASingle (u "IN"))].

(* nmeatypes_get_prop.py:1088 *)
Definition def_gp_QTMCFGANTDELTA : pdict :=
    [(u "status", ASingle (u "QS"));
     (u "east", ASingle (u "DE"));
     (u "north", ASingle (u "DE"));
     (u "height", ASingle (u "DE"))].

(* nmeatypes_get_prop.py:1094 *)
Definition def_gp_QTMCFGANTINF : pdict :=
    [(u "status", ASingle (u "QS"));
     (u "antennadesc", ASingle (u "ST"));
     (u "antennasetupid", ASingle (u "IN"));
     (u "antennasn", ASingle (u "ST"))].

(* nmeatypes_get_prop.py:1100 *)
Definition def_gp_QTMCFGBLD : pdict :=
    [(u "status", ASingle (u "QS"));
     (u "distance", ASingle (u "DE"))].

(* nmeatypes_get_prop.py:1104 *)
Definition def_gp_QTMCFGCNST : pdict :=
    [(u "status", ASingle (u "QS"));
     (u "gps", ASingle (u "IN"));
     (u "glonass", ASingle (u "IN"));
     (u "galileo", ASingle (u "IN"));
     (u "beidou", ASingle (u "IN"));
     (u "qzss", ASingle (u "IN"));
     (u "navic", ASingle (u "IN"))].

(* nmeatypes_get_prop.py:1113 *)
Definition def_gp_QTMCFGDR : pdict :=
    [(u "status", ASingle (u "QS"));
     (u "drstate", ASingle (u "IN"))].

(* nmeatypes_get_prop.py:1117 *)
Definition def_gp_QTMCFGDRHOT : pdict :=
    [(u "status", ASingle (u "QS"));
     (u "mode", ASingle (u "IN"))].

(* nmeatypes_get_prop.py:1118 *)
Definition def_gp_QTMCFGDRRTD : pdict :=
    [(u "status", ASingle (u "QS"));
     (u "time", ASingle (u "IN"));
     (u "distance", ASingle (u "IN"))].

(* nmeatypes_get_prop.py:1119 *)
Definition def_gp_QTMCFGEINSMSG : pdict :=
    [(u "type", ASingle (u "IN"));
     (u "ins_enabled", ASingle (u "IN"));
     (u "imu_enabled", ASingle (u "IN"));
     (u "gps_enabled", ASingle (u "IN"));
     (u "rate", ASingle (u "IN"))].

(* nmeatypes_get_prop.py:1126 *)
Definition def_gp_QTMCFGELETHD : pdict :=
    [(u "status", ASingle (u "QS"));
     (u "elevation", ASingle (u "DE"))].

(* nmeatypes_get_prop.py:1130 *)
Definition def_gp_QTMCFGFIXRATE : pdict :=
    [(u "status", ASingle (u "QS"));
     (u "fixinterval", ASingle (u "IN"))].

(* nmeatypes_get_prop.py:1134 *)
Definition def_gp_QTMCFGGEOFENCE : pdict :=
    [(u "status", ASingle (u "QS"));
     (u "geofenceindex", ASingle (u "IN"));
     (u "geofencemode", ASingle (u "IN"));
     (u "reserved", ASingle (u "IN"));
     (u "shape", ASingle (u "IN"));
     (u "lat0", ASingle (u "DE"));
     (u "lon0", ASingle (u "DE"));
     (u "radiuslat1", ASingle (u "DE"))].

(* nmeatypes_get_prop.py:1144 *)
Definition def_gp_QTMCFGGEOFENCE_DIS : pdict :=
    [(u "status", ASingle (u "QS"));
     (u "geofenceindex", ASingle (u "IN"));
     (u "geofencemode", ASingle (u "IN"))].

(* nmeatypes_get_prop.py:1149 *)
Definition def_gp_QTMCFGGEOFENCE_POLY : pdict :=
    [(u "status", ASingle (u "QS"));
     (u "geofenceindex", ASingle (u "IN"));
     (u "geofencemode", ASingle (u "IN"));
     (u "reserved", ASingle (u "IN"));
     (u "shape", ASingle (u "IN"));
     (u "lat0", ASingle (u "DE"));
     (u "lon0", ASingle (u "DE"));
     (u "radiuslat1", ASingle (u "DE"));
     (u "lon1", ASingle (u "DE"));
     (u "lat2", ASingle (u "DE"));
     (u "lon2", ASingle (u "DE"));
     (u "lat3", ASingle (u "DE"));
     (u "lon3", ASingle (u "DE"))].

(* nmeatypes_get_prop.py:1164 *)
Definition def_gp_QTMCFGGEOSEP : pdict :=
    [(u "status", ASingle (u "QS"));
     (u "mode", ASingle (u "IN"));
     (u "geosep", ASingle (u "DE"))].

(* nmeatypes_get_prop.py:1169 *)
Definition def_gp_QTMCFGIMUINT : pdict :=
    [(u "status", ASingle (u "QS"));
     (u "index", ASingle (u "IN"));
     (u "mode", ASingle (u "IN"));
     (u "reserved", ASingle (u "IN"));
     (u "actLevel", ASingle (u "IN"))].

(* nmeatypes_get_prop.py:1176 *)
Definition def_gp_QTMCFGIMUTC : pdict :=
    [(u "status", ASingle (u "QS"));
     (u "imustatus", ASingle (u "IN"))].

(* nmeatypes_get_prop.py:1180 *)
Definition def_gp_QTMCFGLA : pdict :=
    [(u "status", ASingle (u "QS"));
     (u "type", ASingle (u "IN"));
     (u "laX", ASingle (u "DE"));
     (u "laY", ASingle (u "DE"));
     (u "laZ", ASingle (u "DE"))].

(* nmeatypes_get_prop.py:1187 *)
Definition def_gp_QTMCFGLAM : pdict :=
    [(u "status", ASingle (u "QS"));
     (u "mode", ASingle (u "IN"))].

(* nmeatypes_get_prop.py:1191 *)
Definition def_gp_QTMCFGMSGRATE : pdict :=
    [(u "status", ASingle (u "QS"));
     (u "msgname", ASingle (u "ST"));
     (u "rate", ASingle (u "IN"));
     (u "msgver", ASingle (u "IN"))].

(* nmeatypes_get_prop.py:1197 *)
Definition def_gp_QTMCFGMSGRATE_NOVER : pdict :=
    [(u "status", ASingle (u "QS"));
     (u "msgname", ASingle (u "ST"));
     (u "rate", ASingle (u "IN"))].

(* nmeatypes_get_prop.py:1202 *)
Definition def_gp_QTMCFGMSGRATE_INTF : pdict :=
    [(u "status", ASingle (u "QS"));
     (u "porttype", ASingle (u "IN"));
     (u "portid", ASingle (u "IN"));
     (u "msgname", ASingle (u "ST"));
     (u "rate", ASingle (u "IN"));
     (u "msgver", ASingle (u "IN"))].

(* nmeatypes_get_prop.py:1210 *)
Definition def_gp_QTMCFGMSGRATE_INTFNOVER : pdict :=
    [(u "status", ASingle (u "QS"));
     (u "porttype", ASingle (u "IN"));
     (u "portid", ASingle (u "IN"));
     (u "msgname", ASingle (u "ST"));
     (u "rate", ASingle (u "IN"))].

(* nmeatypes_get_prop.py:1217 *)
Definition def_gp_QTMCFGNAVMODE : pdict :=
    [(u "status", ASingle (u "QS"));
     (u "mode", ASingle (u "IN"))].

(* nmeatypes_get_prop.py:1221 *)
Definition def_gp_QTMCFGNMEADP : pdict :=
    [(u "status", ASingle (u "QS"));
     (u "utcdp", ASingle (u "IN"));
     (u "posdp", ASingle (u "IN"));
     (u "altdp", ASingle (u "IN"));
     (u "dopdp", ASingle (u "IN"));
     (u "spddp", ASingle (u "IN"));
     (u "cogdp", ASingle (u "IN"))].

(* nmeatypes_get_prop.py:1230 *)
Definition def_gp_QTMCFGNMEATID : pdict :=
    [(u "status", ASingle (u "QS"));
     (u "mainTalker", ASingle (u "ST"));
     (u "gsvTalker", ASingle (u "ST"))].

(* nmeatypes_get_prop.py:1235 *)
Definition def_gp_QTMCFGODO : pdict :=
    [(u "status", ASingle (u "QS"));
     (u "state", ASingle (u "IN"));
     (u "initdist", ASingle (u "DE"))].

(* nmeatypes_get_prop.py:1240 *)
Definition def_gp_QTMCFGPPS : pdict :=
    [(u "status", ASingle (u "QS"));
     (u "ppsindex", ASingle (u "IN"));
     (u "enable", ASingle (u "IN"));
     (u "duration", ASingle (u "IN"));
     (u "ppsmode", ASingle (u "IN"));
     (u "polarity", ASingle (u "IN"));
     (u "reserved", ASingle (u "IN"))].

(* nmeatypes_get_prop.py:1249 *)
Definition def_gp_QTMCFGPROT : pdict :=
    [(u "status", ASingle (u "QS"));
     (u "porttype", ASingle (u "IN"));
     (u "portid", ASingle (u "IN"));
     (u "inputprot", ASingle (u "ST"));
     (u "outputprot", ASingle (u "ST"))].

(* nmeatypes_get_prop.py:1256 *)
Definition def_gp_QTMCFGRCVRMODE : pdict :=
    [(u "status", ASingle (u "QS"));
     (u "rcvrmode", ASingle (u "IN"))].

(* nmeatypes_get_prop.py:1260 *)
Definition def_gp_QTMCFGRSID : pdict :=
    [(u "status", ASingle (u "QS"));
     (u "rsid", ASingle (u "IN"))].

(* nmeatypes_get_prop.py:1264 *)
Definition def_gp_QTMCFGRTCM : pdict :=
    [(u "status", ASingle (u "QS"));
     (u "msmtype", ASingle (u "IN"));
     (u "msmmode", ASingle (u "IN"));
     (u "msmelevthd", ASingle (u "DE"));
     (u "reserved1", ASingle (u "ST"));
     (u "reserved2", ASingle (u "ST"));
     (u "ephmode", ASingle (u "IN"));
     (u "ephinterval", ASingle (u "IN"))].

(* nmeatypes_get_prop.py:1274 *)
Definition def_gp_QTMCFGRTK : pdict :=
    [(u "status", ASingle (u "QS"));
     (u "diffmode", ASingle (u "IN"));
     (u "relmode", ASingle (u "IN"))].

(* nmeatypes_get_prop.py:1279 *)
Definition def_gp_QTMCFGRTKSRCTYPE : pdict :=
    [(u "status", ASingle (u "QS"));
     (u "srctype", ASingle (u "IN"))].

(* nmeatypes_get_prop.py:1283 *)
Definition def_gp_QTMMCFGRTKSRCTYPE : pdict :=
    [(u "status", ASingle (u "QS"));
     (u "srctype", ASingle (u "IN"))].

(* nmeatypes_get_prop.py:1287 *)
Definition def_gp_QTMCFGSAT : pdict :=
    [(u "status", ASingle (u "QS"));
     (u "systemid", ASingle (u "IN"));
     (u "signalid", ASingle (u "ST"));
     (u "masklow", ASingle (u "ST"));
     (u "maskhigh", ASingle (u "ST"))].

(* nmeatypes_get_prop.py:1294 *)
Definition def_gp_QTMCFGSAT_LOW : pdict :=
    [(u "status", ASingle (u "QS"));
     (u "systemid", ASingle (u "IN"));
     (u "signalid", ASingle (u "ST"));
     (u "masklow", ASingle (u "ST"))].

(* nmeatypes_get_prop.py:1300 *)
Definition def_gp_QTMCFGSBAS : pdict :=
    [(u "status", ASingle (u "QS"));
     (u "value", ASingle (u "HX"))].

(* nmeatypes_get_prop.py:1304 *)
Definition def_gp_QTMCFGSIGGRP : pdict :=
    [(u "status", ASingle (u "QS"));
     (u "siggrpnum", ASingle (u "IN"))].

(* nmeatypes_get_prop.py:1308 *)
Definition def_gp_QTMCFGSIGNAL : pdict :=
    [(u "status", ASingle (u "QS"));
     (u "gpssig", ASingle (u "ST"));
     (u "glonasssig", ASingle (u "ST"));
     (u "galileosig", ASingle (u "ST"));
     (u "beidousig", ASingle (u "ST"));
     (u "qzsssig", ASingle (u "ST"));
     (u "navicsig", ASingle (u "ST"))].

(* nmeatypes_get_prop.py:1317 *)
Definition def_gp_QTMCFGSIGNAL2 : pdict :=
    [(u "status", ASingle (u "QS"));
     (u "gpssig", ASingle (u "ST"));
     (u "glonasssig", ASingle (u "ST"));
     (u "galileosig", ASingle (u "ST"));
     (u "beidousig", ASingle (u "ST"));
     (u "qzsssig", ASingle (u "ST"));
     (u "navicsig", ASingle (u "ST"))].

(* nmeatypes_get_prop.py:1326 *)
Definition def_gp_QTMCFGSTATICHOLD : pdict :=
    [(u "status", ASingle (u "QS"));
     (u "shstate", ASingle (u "IN"))].

(* nmeatypes_get_prop.py:1330 *)
Definition def_gp_QTMCFGSVIN : pdict :=
    [(u "status", ASingle (u "QS"));
     (u "svinmode", ASingle (u "IN"));
     (u "cfgcnt", ASingle (u "IN"));
     (u "acclimit", ASingle (u "DE"));
     (u "ecefx", ASingle (u "DE"));
     (u "ecefy", ASingle (u "DE"));
     (u "ecefz", ASingle (u "DE"))].

(* nmeatypes_get_prop.py:1339 *)
Definition def_gp_QTMCFGUART : pdict :=
    [(u "status", ASingle (u "QS"));
     (u "portid", ASingle (u "IN"));
     (u "baudrate", ASingle (u "IN"));
     (u "databit", ASingle (u "IN"));
     (u "parity", ASingle (u "IN"));
     (u "stopbit", ASingle (u "IN"));
     (u "flowctrl", ASingle (u "IN"))].

(* nmeatypes_get_prop.py:1348 *)
Definition def_gp_QTMCFGVEHMOT : pdict :=
    [(u "status", ASingle (u "QS"));
     (u "mode", ASingle (u "IN"));
     (u "vehtype", ASingle (u "IN"))].

(* nmeatypes_get_prop.py:1353 *)
Definition def_gp_QTMCFGWN : pdict :=
    [(u "status", ASingle (u "QS"));
     (u "weekno", ASingle (u "IN"))].

(* nmeatypes_get_prop.py:1357 *)
Definition def_gp_QTMDEBUGON : pdict :=
    [(u "status", ASingle (u "QS"))].

(* nmeatypes_get_prop.py:1358 *)
Definition def_gp_QTMDEBUGOFF : pdict :=
    [(u "status", ASingle (u "QS"))].

(* nmeatypes_get_prop.py:1359 *)
Definition def_gp_QTMDOP : pdict :=
    [(u "msgver", ASingle (u "IN"));
     (u "tow", ASingle (u "IN"));
     (u "gdop", ASingle (u "DE"));
     (u "pdop", ASingle (u "DE"));
     (u "tdop", ASingle (u "DE"));
     (u "vdop", ASingle (u "DE"));
     (u "hdop", ASingle (u "DE"));
     (u "ndop", ASingle (u "DE"));
     (u "edop", ASingle (u "DE"))].

(* nmeatypes_get_prop.py:1370 *)
Definition def_gp_QTMDRCAL : pdict :=
    [(u "msgver", ASingle (u "IN"));
     (u "calstate", ASingle (u "IN"));
     (u "navtype", ASingle (u "IN"))].

(* nmeatypes_get_prop.py:1375 *)
Definition def_gp_QTMDRCLR : pdict :=
    [(u "status", ASingle (u "QS"))].

(* nmeatypes_get_prop.py:1376 *)
Definition def_gp_QTMDRPVA : pdict :=
    [(u "msgver", ASingle (u "IN"));
     (u "timestamp", ASingle (u "IN"));
     (u "time", ASingle (u "DE"));
     (u "solType", ASingle (u "IN"));
     (u "lat", ASingle (u "DE"));
     (u "lon", ASingle (u "DE"));
     (u "alt", ASingle (u "DE"));
     (u "sep", ASingle (u "DE"));
     (u "velN", ASingle (u "DE"));
     (u "velE", ASingle (u "DE"));
     (u "velD", ASingle (u "DE"));
     (u "speed", ASingle (u "DE"));
     (u "roll", ASingle (u "DE"));
     (u "pitch", ASingle (u "DE"));
     (u "heading", ASingle (u "DE"))].

(* nmeatypes_get_prop.py:1393 *)
Definition def_gp_QTMDRSAVE : pdict :=
    [(u "status", ASingle (u "QS"))].

(* nmeatypes_get_prop.py:1394 *)
Definition def_gp_QTMEOE : pdict :=
    [(u "msgver", ASingle (u "IN"));
     (u "utc", ASingle (u "DE"));
     (u "Date", ASingle (u "IN"));
     (u "WN", ASingle (u "IN"));
     (u "TOW", ASingle (u "IN"))].

(* nmeatypes_get_prop.py:1401 *)
Definition def_gp_QTMEPE : pdict :=
    [(u "msgver", ASingle (u "IN"));
     (u "epenorth", ASingle (u "DE"));
     (u "epeeast", ASingle (u "DE"));
     (u "epedown", ASingle (u "DE"));
     (u "epe2d", ASingle (u "DE"));
     (u "epe3d", ASingle (u "DE"))].

(* nmeatypes_get_prop.py:1409 *)
Definition def_gp_QTMGEOFENCESTATUS : pdict :=
    [(u "msgver", ASingle (u "IN"));
     (u "time", ASingle (u "TM"));
     (u "group", AGroup (NInt (4)) [(u "staten", ASingle (u "IN"))])].

(* nmeatypes_get_prop.py:1410 *)
Definition def_gp_QTMGETUTC : pdict :=
    [(u "status", ASingle (u "QS"));
     (u "year", ASingle (u "IN"));
     (u "month", ASingle (u "IN"));
     (u "day", ASingle (u "IN"));
     (u "hour", ASingle (u "IN"));
     (u "minute", ASingle (u "IN"));
     (u "second", ASingle (u "IN"));
     (u "millisecond", ASingle (u "IN"));
     (u "reserved", ASingle (u "ST"));
     (u "leapsecond", ASingle (u "IN"))].

(* nmeatypes_get_prop.py:1422 *)
Definition def_gp_QTMGNSSSTART : pdict :=
    [(u "status", ASingle (u "QS"))].

(* nmeatypes_get_prop.py:1423 *)
Definition def_gp_QTMGNSSSTOP : pdict :=
    [(u "status", ASingle (u "QS"))].

(* nmeatypes_get_prop.py:1424 *)
Definition def_gp_QTMGPS : pdict :=
    [(u "timestamp", ASingle (u "IN"));
     (u "tow", ASingle (u "IN"));
     (u "lat", ASingle (u "DE"));
     (u "lon", ASingle (u "DE"));
     (u "alt", ASingle (u "DE"));
     (u "speed", ASingle (u "DE"));
     (u "heading", ASingle (u "DE"));
     (u "accuracy", ASingle (u "DE"));
     (u "HDOP", ASingle (u "DE"));
     (u "PDOP", ASingle (u "DE"));
     (u "numSv", ASingle (u "IN"));
     (u "fixMode", ASingle (u "IN"))].

(* nmeatypes_get_prop.py:1438 *)
Definition def_gp_QTMJAMMINGSTATUS : pdict :=
    [(u "msgver", ASingle (u "IN"));
     (u "jammingstatus", ASingle (u "IN"))].

(* nmeatypes_get_prop.py:1442 *)
Definition def_gp_QTMIMU : pdict :=
    [(u "timestamp", ASingle (u "IN"));
     (u "accX", ASingle (u "DE"));
     (u "accY", ASingle (u "DE"));
     (u "accZ", ASingle (u "DE"));
     (u "angrateX", ASingle (u "DE"));
     (u "angrateY", ASingle (u "DE"));
     (u "angrateZ", ASingle (u "DE"));
     (u "wheeltick", ASingle (u "IN"));
     (u "last_tick_timestamp", ASingle (u "IN"))].

(* nmeatypes_get_prop.py:1453 *)
Definition def_gp_QTMIMUTYPE : pdict :=
    [(u "msgver", ASingle (u "IN"));
     (u "imustatus", ASingle (u "IN"))].

(* nmeatypes_get_prop.py:1457 *)
Definition def_gp_QTMINS : pdict :=
    [(u "timestamp", ASingle (u "IN"));
     (u "soltype", ASingle (u "IN"));
     (u "lat", ASingle (u "DE"));
     (u "lon", ASingle (u "DE"));
     (u "height", ASingle (u "DE"));
     (u "velN", ASingle (u "DE"));
     (u "velE", ASingle (u "DE"));
     (u "velD", ASingle (u "DE"));
     (u "roll", ASingle (u "DE"));
     (u "pitch", ASingle (u "DE"));
     (u "yaw", ASingle (u "DE"))].

(* nmeatypes_get_prop.py:1470 *)
Definition def_gp_QTMLS : pdict :=
    [(u "msgver", ASingle (u "IN"));
     (u "tow", ASingle (u "IN"));
     (u "lsRef", ASingle (u "HX"));
     (u "wno", ASingle (u "IN"));
     (u "leapsecond", ASingle (u "IN"));
     (u "flag", ASingle (u "IN"));
     (u "lsfRef", ASingle (u "HX"));
     (u "reserved", ASingle (u "ST"));
     (u "wnlsf", ASingle (u "IN"));
     (u "dn", ASingle (u "IN"));
     (u "lsf", ASingle (u "IN"))].

(* nmeatypes_get_prop.py:1483 *)
Definition def_gp_QTMNAV : pdict :=
    [(u "msgver", ASingle (u "IN"));
     (u "timestatus", ASingle (u "IN"));
     (u "timeref", ASingle (u "IN"));
     (u "utc", ASingle (u "DE"));
     (u "date", ASingle (u "IN"));
     (u "tow", ASingle (u "IN"));
     (u "wn", ASingle (u "IN"));
     (u "leapsec", ASingle (u "IN"));
     (u "reserved1", ASingle (u "ST"));
     (u "reserved2", ASingle (u "ST"));
     (u "soltype", ASingle (u "IN"));
     (u "reserved3", ASingle (u "IN"));
     (u "lat", ASingle (u "DE"));
     (u "lon", ASingle (u "DE"));
     (u "alt", ASingle (u "DE"));
     (u "sep", ASingle (u "DE"));
     (u "reserved4", ASingle (u "ST"));
     (u "reserved5", ASingle (u "ST"));
     (u "latstd", ASingle (u "DE"));
     (u "lonstd", ASingle (u "DE"));
     (u "altstd", ASingle (u "DE"));
     (u "reserved6", ASingle (u "ST"));
     (u "reserved7", ASingle (u "ST"));
     (u "diffid", ASingle (u "DE"));
     (u "diffAge", ASingle (u "DE"));
     (u "reserved8", ASingle (u "ST"));
     (u "siv", ASingle (u "IN"));
     (u "sip", ASingle (u "IN"));
     (u "reserved9", ASingle (u "ST"));
     (u "reserved10", ASingle (u "ST"));
     (u "reserved11", ASingle (u "ST"));
     (u "reserved12", ASingle (u "ST"));
     (u "reserved13", ASingle (u "ST"));
     (u "reserved14", ASingle (u "ST"));
     (u "hvel", ASingle (u "DE"));
     (u "vvel", ASingle (u "DE"));
     (u "hvelstd", ASingle (u "DE"));
     (u "vvelstd", ASingle (u "DE"));
     (u "reserved15", ASingle (u "ST"));
     (u "reserved16", ASingle (u "ST"));
     (u "cog", ASingle (u "DE"));
     (u "reserved17", ASingle (u "ST"));
     (u "reserved18", ASingle (u "ST"))].

(* nmeatypes_get_prop.py:1528 *)
Definition def_gp_QTMODO : pdict :=
    [(u "msgver", ASingle (u "IN"));
     (u "time", ASingle (u "TM"));
     (u "state", ASingle (u "IN"));
     (u "dist", ASingle (u "DE"))].

(* nmeatypes_get_prop.py:1534 *)
Definition def_gp_QTMPL : pdict :=
    [(u "msgver", ASingle (u "IN"));
     (u "tow", ASingle (u "IN"));
     (u "pul", ASingle (u "DE"));
     (u "reserved1", ASingle (u "IN"));
     (u "reserved2", ASingle (u "IN"));
     (u "plposn", ASingle (u "DE"));
     (u "plpose", ASingle (u "DE"));
     (u "plposd", ASingle (u "DE"));
     (u "plveln", ASingle (u "DE"));
     (u "plvele", ASingle (u "DE"));
     (u "plveld", ASingle (u "DE"));
     (u "reserved3", ASingle (u "IN"));
     (u "reserved4", ASingle (u "IN"));
     (u "pltime", ASingle (u "IN"))].

(* nmeatypes_get_prop.py:1550 *)
Definition def_gp_QTMPVT : pdict :=
    [(u "msgver", ASingle (u "IN"));
     (u "tow", ASingle (u "IN"));
     (u "date", ASingle (u "ST"));
     (u "time", ASingle (u "TM"));
     (u "reserved", ASingle (u "IN"));
     (u "fixtype", ASingle (u "IN"));
     (u "numsv", ASingle (u "IN"));
     (u "leaps", ASingle (u "IN"));
     (u "lat", ASingle (u "DE"));
     (u "lon", ASingle (u "DE"));
     (u "alt", ASingle (u "DE"));
     (u "sep", ASingle (u "DE"));
     (u "veln", ASingle (u "DE"));
     (u "vele", ASingle (u "DE"));
     (u "veld", ASingle (u "DE"));
     (u "spd", ASingle (u "DE"));
     (u "hdg", ASingle (u "DE"));
     (u "hdop", ASingle (u "DE"));
     (u "pdop", ASingle (u "DE"))].

(* nmeatypes_get_prop.py:1571 *)
Definition def_gp_QTMQVER : pdict :=
    [(u "status", ASingle (u "QS"));
     (u "msgver", ASingle (u "IN"));
     (u "description", ASingle (u "ST"));
     (u "version", ASingle (u "ST"));
     (u "buildDate", ASingle (u "ST"));
     (u "buildTime", ASingle (u "ST"))].

(* nmeatypes_get_prop.py:1579 *)
Definition def_gp_QTMRESETODO : pdict :=
    [(u "status", ASingle (u "QS"))].

(* nmeatypes_get_prop.py:1580 *)
Definition def_gp_QTMRESTOREPAR : pdict :=
    [(u "status", ASingle (u "QS"))].

(* nmeatypes_get_prop.py:1581 *)
Definition def_gp_QTMSAVEPAR : pdict :=
    [(u "status", ASingle (u "QS"))].

(* nmeatypes_get_prop.py:1582 *)
Definition def_gp_QTMSENMSG : pdict :=
    [(u "msgver", ASingle (u "IN"));
     (u "timestamp", ASingle (u "IN"));
     (u "group", AGroup (NStr (u "None")) [(u "sensor_info", ASingle (u "DE"))])].

(* nmeatypes_get_prop.py:1592 *)
Definition def_gp_QTMSN : pdict :=
    [(u "status", ASingle (u "QS"));
     (u "snid", ASingle (u "IN"));
     (u "length", ASingle (u "IN"));
     (u "serialno", ASingle (u "ST"))].

(* nmeatypes_get_prop.py:1598 *)
Definition def_gp_QTMSN_ALT : pdict :=
    [(u "snid", ASingle (u "IN"));
     (u "length", ASingle (u "IN"));
     (u "status", ASingle (u "QS"));
     (u "serialno", ASingle (u "ST"))].

(* nmeatypes_get_prop.py:1604 *)
Definition def_gp_QTMSTD : pdict :=
    [(u "reserved", ASingle (u "ST"));
     (u "utc", ASingle (u "TM"));
     (u "wno", ASingle (u "IN"));
     (u "tow", ASingle (u "IN"));
     (u "stdLat", ASingle (u "ST"));
     (u "stdLon", ASingle (u "ST"));
     (u "stdAlt", ASingle (u "ST"));
     (u "stdSep", ASingle (u "ST"));
     (u "stdVelN", ASingle (u "ST"));
     (u "stdVelE", ASingle (u "ST"));
     (u "stdVelD", ASingle (u "ST"));
     (u "stdSpd", ASingle (u "ST"));
     (u "stdRoll", ASingle (u "ST"));
     (u "stdPitch", ASingle (u "ST"));
     (u "stdHeading", ASingle (u "ST"))].

(* nmeatypes_get_prop.py:1621 *)
Definition def_gp_QTMSVINSTATUS : pdict :=
    [(u "msgver", ASingle (u "IN"));
     (u "tow", ASingle (u "IN"));
     (u "valid", ASingle (u "IN"));
     (u "reserved0", ASingle (u "IN"));
     (u "reserved1", ASingle (u "IN"));
     (u "obs", ASingle (u "IN"));
     (u "cfgdur", ASingle (u "IN"));
     (u "meanx", ASingle (u "DE"));
     (u "meany", ASingle (u "DE"));
     (u "meanz", ASingle (u "DE"));
     (u "meanacc", ASingle (u "DE"))].

(* nmeatypes_get_prop.py:1634 *)
Definition def_gp_QTMTAR : pdict :=
    [(u "msgver", ASingle (u "IN"));
     (u "time", ASingle (u "DE"));
     (u "quality", ASingle (u "DE"));
     (u "res", ASingle (u "DE"));
     (u "length", ASingle (u "DE"));
     (u "pitch", ASingle (u "DE"));
     (u "roll", ASingle (u "DE"));
     (u "heading", ASingle (u "DE"));
     (u "accpitch", ASingle (u "DE"));
     (u "accroll", ASingle (u "DE"));
     (u "accheading", ASingle (u "DE"));
     (u "usedsv", ASingle (u "IN"))].

(* nmeatypes_get_prop.py:1648 *)
Definition def_gp_QTMTXT : pdict :=
    [(u "msgver", ASingle (u "IN"));
     (u "totalsennum", ASingle (u "IN"));
     (u "sennum", ASingle (u "IN"));
     (u "textid", ASingle (u "IN"));
     (u "text", ASingle (u "ST"))].

(* nmeatypes_get_prop.py:1655 *)
Definition def_gp_QTMUNIQID : pdict :=
    [(u "status", ASingle (u "QS"));
     (u "length", ASingle (u "IN"));
     (u "ID", ASingle (u "HX"))].

(* nmeatypes_get_prop.py:1660 *)
Definition def_gp_QTMVEHATT : pdict :=
    [(u "msgver", ASingle (u "IN"));
     (u "timestamp", ASingle (u "IN"));
     (u "roll", ASingle (u "DE"));
     (u "pitch", ASingle (u "DE"));
     (u "heading", ASingle (u "DE"));
     (u "acc_Roll", ASingle (u "DE"));
     (u "acc_Pitch", ASingle (u "DE"));
     (u "acc_Heading", ASingle (u "DE"))].

(* nmeatypes_get_prop.py:1670 *)
Definition def_gp_QTMVEHMOT : pdict :=
    [(u "msgver", ASingle (u "IN"));
     (u "group", AGroup (NStr (u "None")) [(u "vehicle_info", ASingle (u "DE"))])].

(* nmeatypes_get_prop.py:1679 *)
Definition def_gp_QTMVEHMSG : pdict :=
    [(u "msgver", ASingle (u "IN"));
     (u "timestamp", ASingle (u "IN"));
     (u "group", AGroup (NStr (u "None")) [(u "vehicle_info", ASingle (u "DE"))])].

(* nmeatypes_get_prop.py:1689 *)
Definition def_gp_QTMVEL : pdict :=
    [(u "msgver", ASingle (u "IN"));
     (u "time", ASingle (u "TM"));
     (u "veln", ASingle (u "DE"));
     (u "vele", ASingle (u "DE"));
     (u "veld", ASingle (u "DE"));
     (u "gndspd", ASingle (u "DE"));
     (u "spd", ASingle (u "DE"));
     (u "hdg", ASingle (u "DE"));
     (u "gndspdacc", ASingle (u "DE"));
     (u "spdacc", ASingle (u "DE"));
     (u "hdgacc", ASingle (u "DE"))].

(* nmeatypes_get_prop.py:1702 *)
Definition def_gp_QTMVER : pdict :=
    [(u "msgver", ASingle (u "IN"));
     (u "vername", ASingle (u "ST"));
     (u "verstr", ASingle (u "ST"));
     (u "builddate", ASingle (u "ST"));
     (u "buildtime", ASingle (u "ST"))].

(* nmeatypes_get_prop.py:1709 *)
Definition def_gp_QTMVERNO : pdict :=
    [(u "verstr", ASingle (u "ST"));
     (u "builddate", ASingle (u "ST"));
     (u "buildtime", ASingle (u "ST"))].

(* nmeatypes_get_prop.py:1718 *)
Definition def_gp_STMPPSDATA : pdict :=
    [(u "onoff", ASingle (u "IN"));
     (u "ppsvalid", ASingle (u "IN"));
     (u "syncvalid", ASingle (u "IN"));
     (u "outmode", ASingle (u "IN"));
     (u "reftime", ASingle (u "IN"));
     (u "refconst", ASingle (u "IN"));
     (u "pulseduration", ASingle (u "DE"));
     (u "pulsedelay", ASingle (u "DE"));
     (u "gpsdelay", ASingle (u "DE"));
     (u "reserved1", ASingle (u "ST"));
     (u "bdsdelay", ASingle (u "DE"));
     (u "galileodelay", ASingle (u "DE"));
     (u "invertedpolarity", ASingle (u "IN"));
     (u "fixcond", ASingle (u "IN"));
     (u "satth", ASingle (u "DE"));
     (u "elevmask", ASingle (u "DE"));
     (u "constmask", ASingle (u "IN"));
     (u "refsec", ASingle (u "DE"));
     (u "fixstatus", ASingle (u "DE"));
     (u "usedsats", ASingle (u "DE"));
     (u "gpsutcdeltas", ASingle (u "DE"));
     (u "gpsutcdeltans", ASingle (u "DE"));
     (u "reserved2", ASingle (u "ST"));
     (u "galileoutcdeltans", ASingle (u "DE"));
     (u "quantizationerror", ASingle (u "DE"));
     (u "ppsclockfreq", ASingle (u "DE"));
     (u "tcxoclockfreq", ASingle (u "DE"));
     (u "bdsutcdeltatimes", ASingle (u "DE"))].

(* nmeatypes_get_prop.py:1748 *)
Definition def_gp_STMCPU : pdict :=
    [(u "cpuusage", ASingle (u "DE"));
     (u "pllonoff", ASingle (u "IN"));
     (u "cpuspeed", ASingle (u "HX"))].

(* nmeatypes_get_prop.py:1753 *)
Definition def_gp_STMTG : pdict :=
    [(u "wno", ASingle (u "IN"));
     (u "tow", ASingle (u "DE"));
     (u "reserved1", ASingle (u "ST"));
     (u "cputime", ASingle (u "DE"));
     (u "timevalid", ASingle (u "IN"));
     (u "nco", ASingle (u "DE"));
     (u "configstatus", ASingle (u "HX"));
     (u "constmask", ASingle (u "IN"));
     (u "timebestsattype", ASingle (u "IN"));
     (u "timemastersattype", ASingle (u "IN"));
     (u "timemasterwn", ASingle (u "IN"));
     (u "timemastertow", ASingle (u "DE"));
     (u "timemastervalidity", ASingle (u "DE"));
     (u "tgauxflags", ASingle (u "IN"));
     (u "clockbias", ASingle (u "DE"));
     (u "mfreqconfigmask", ASingle (u "DE"));
     (u "leapsec", ASingle (u "IN"));
     (u "ppsedge", ASingle (u "DE"));
     (u "mtbms", ASingle (u "DE"));
     (u "mtbtimestamp", ASingle (u "DE"))].

(* nmeatypes_get_prop.py:1775 *)
Definition def_gp_STMTS : pdict :=
    [(u "dspdat", ASingle (u "IN"));
     (u "satid", ASingle (u "IN"));
     (u "psr", ASingle (u "DE"));
     (u "freq", ASingle (u "DE"));
     (u "cp", ASingle (u "DE"));
     (u "dspflags", ASingle (u "IN"));
     (u "satcn0", ASingle (u "DE"));
     (u "ttim", ASingle (u "DE"));
     (u "codenoise", ASingle (u "DE"));
     (u "phasenoise", ASingle (u "DE"));
     (u "cycleslipcnt", ASingle (u "DE"));
     (u "reserved1", ASingle (u "ST"));
     (u "elev", ASingle (u "DE"))].

(* nmeatypes_get_prop.py:1790 *)
Definition def_gp_STMSBAS : pdict :=
    [(u "status", ASingle (u "IN"));
     (u "sattrk", ASingle (u "IN"));
     (u "satid", ASingle (u "IN"));
     (u "elev", ASingle (u "DE"));
     (u "azim", ASingle (u "DE"));
     (u "satcn0", ASingle (u "DE"))].

(* nmeatypes_get_prop.py:1798 *)
Definition def_gp_STMTEMP : pdict :=
    [(u "temperature", ASingle (u "DE"));
     (u "rawtemperature", ASingle (u "DE"));
     (u "calibration", ASingle (u "IN"))].

(* nmeatypes_get_prop.py:1803 *)
Definition def_gp_STMDRCONFID : pdict :=
    [(u "latstddev", ASingle (u "DE"));
     (u "lonstddev", ASingle (u "DE"));
     (u "headingstddev", ASingle (u "DE"));
     (u "reserved1", ASingle (u "ST"));
     (u "gyrobiasstddev", ASingle (u "DE"));
     (u "odoscalestddev", ASingle (u "DE"));
     (u "reserved2", ASingle (u "ST"));
     (u "accoffsetstddev", ASingle (u "DE"));
     (u "heightstddev", ASingle (u "DE"));
     (u "majorsemiaxis", ASingle (u "DE"));
     (u "minorsemiaxis", ASingle (u "DE"));
     (u "ellipseangle", ASingle (u "DE"));
     (u "speedstddev", ASingle (u "DE"))].

(* nmeatypes_get_prop.py:1818 *)
Definition def_gp_STMDRBSD : pdict :=
    [(u "timestamp", ASingle (u "DE"));
     (u "cputime", ASingle (u "IN"));
     (u "gyroxbiassd", ASingle (u "DE"));
     (u "gyroybiassd", ASingle (u "DE"));
     (u "gyrozbiassd", ASingle (u "DE"));
     (u "accxbiassd", ASingle (u "DE"));
     (u "accybiassd", ASingle (u "DE"));
     (u "acczbiassd", ASingle (u "DE"))].

(* nmeatypes_get_prop.py:1828 *)
Definition def_gp_STMDRGPS : pdict :=
    [(u "lat", ASingle (u "DE"));
     (u "lon", ASingle (u "DE"));
     (u "vn", ASingle (u "DE"));
     (u "ve", ASingle (u "DE"));
     (u "pdop", ASingle (u "DE"));
     (u "hdop", ASingle (u "DE"));
     (u "vdop", ASingle (u "DE"));
     (u "rmsposresidual", ASingle (u "DE"));
     (u "rmsvelresidual", ASingle (u "DE"));
     (u "vup", ASingle (u "DE"));
     (u "height", ASingle (u "DE"))].

(* nmeatypes_get_prop.py:1841 *)
Definition def_gp_STMDRPVA : pdict :=
    [(u "timestamp", ASingle (u "DE"));
     (u "cputime", ASingle (u "IN"));
     (u "latitude", ASingle (u "DE"));
     (u "longitude", ASingle (u "DE"));
     (u "height", ASingle (u "DE"));
     (u "vnorth", ASingle (u "DE"));
     (u "veast", ASingle (u "DE"));
     (u "vup", ASingle (u "DE"));
     (u "pitch", ASingle (u "DE"));
     (u "roll", ASingle (u "DE"));
     (u "heading", ASingle (u "DE"))].

(* nmeatypes_get_prop.py:1854 *)
Definition def_gp_STMDRPVASD : pdict :=
    [(u "timestamp", ASingle (u "DE"));
     (u "cputime", ASingle (u "IN"));
     (u "latitudesd", ASingle (u "DE"));
     (u "longitudesd", ASingle (u "DE"));
     (u "heightsd", ASingle (u "DE"));
     (u "vnorthsd", ASingle (u "DE"));
     (u "veastsd", ASingle (u "DE"));
     (u "vupsd", ASingle (u "DE"));
     (u "pitchsd", ASingle (u "DE"));
     (u "rollsd", ASingle (u "DE"));
     (u "headingsd", ASingle (u "DE"));
     (u "pnesd", ASingle (u "DE"));
     (u "pnusd", ASingle (u "DE"));
     (u "peusd", ASingle (u "DE"));
     (u "vnesd", ASingle (u "DE"));
     (u "vnusd", ASingle (u "DE"));
     (u "veusd", ASingle (u "DE"))].

(* nmeatypes_get_prop.py:1873 *)
Definition def_gp_STMDRSINT : pdict :=
    [(u "gyrosamplecount", ASingle (u "IN"));
     (u "accsamplecount", ASingle (u "IN"));
     (u "pressamplecount", ASingle (u "IN"));
     (u "odometercount", ASingle (u "IN"));
     (u "gyrointtime", ASingle (u "DE"));
     (u "accinttime", ASingle (u "DE"));
     (u "pressureinttime", ASingle (u "DE"));
     (u "gyroxavg", ASingle (u "DE"));
     (u "gyroyavg", ASingle (u "DE"));
     (u "gyrozavg", ASingle (u "DE"));
     (u "accxavg", ASingle (u "DE"));
     (u "accyavg", ASingle (u "DE"));
     (u "acczavg", ASingle (u "DE"));
     (u "presavg", ASingle (u "DE"))].

(* nmeatypes_get_prop.py:1889 *)
Definition def_gp_STMDRSVF : pdict :=
    [(u "timestamp", ASingle (u "DE"));
     (u "cputime", ASingle (u "IN"));
     (u "xacceleration", ASingle (u "DE"));
     (u "yacceleration", ASingle (u "DE"));
     (u "zacceleration", ASingle (u "DE"));
     (u "xangularrate", ASingle (u "DE"));
     (u "yangularrate", ASingle (u "DE"));
     (u "zangularrate", ASingle (u "DE"))].

(* nmeatypes_get_prop.py:1899 *)
Definition def_gp_STMDRUPD : pdict :=
    [(u "group", AGroup (NStr (u "None")) [(u "data", ASingle (u "HX"))])].

(* nmeatypes_get_prop.py:1900 *)
Definition def_gp_STMDRSTYPE : pdict :=
    [(u "sensortype", ASingle (u "IN"))].

(* nmeatypes_get_prop.py:1903 *)
Definition def_gp_STMDRCAL : pdict :=
    [(u "driscalib", ASingle (u "IN"));
     (u "odoiscalib", ASingle (u "IN"));
     (u "gyrosensitivityiscalib", ASingle (u "IN"));
     (u "gyrobiasiscalib", ASingle (u "IN"));
     (u "imuflag", ASingle (u "HX"));
     (u "gyrointegrityflag", ASingle (u "IN"));
     (u "accintegrity", ASingle (u "IN"));
     (u "calstate", ASingle (u "ST"))].

(* nmeatypes_get_prop.py:1913 *)
Definition def_gp_STMDR1 : pdict :=
    [(u "mpitch", ASingle (u "DE"));
     (u "mroll", ASingle (u "DE"));
     (u "myaw", ASingle (u "DE"));
     (u "gsz", ASingle (u "DE"));
     (u "gbx", ASingle (u "DE"));
     (u "gby", ASingle (u "DE"));
     (u "gbz", ASingle (u "DE"));
     (u "abx", ASingle (u "DE"));
     (u "aby", ASingle (u "DE"));
     (u "abz", ASingle (u "DE"));
     (u "odometerscale", ASingle (u "DE"));
     (u "res1baro", ASingle (u "DE"));
     (u "res2baro", ASingle (u "DE"))].

(* nmeatypes_get_prop.py:1928 *)
Definition def_gp_STMDR2 : pdict :=
    [(u "imucal", ASingle (u "ST"));
     (u "ascal", ASingle (u "ST"));
     (u "motionstatus", ASingle (u "IN"));
     (u "errcode", ASingle (u "IN"));
     (u "sysready", ASingle (u "IN"));
     (u "crosstrackerror", ASingle (u "DE"));
     (u "alongtrackerror", ASingle (u "DE"));
     (u "sysaligned", ASingle (u "IN"));
     (u "vrows", ASingle (u "DE"));
     (u "vrost", ASingle (u "IN"))].

(* nmeatypes_get_prop.py:1940 *)
Definition def_gp_STMDREPE : pdict :=
    [(u "ehpe", ASingle (u "DE"));
     (u "reserved1", ASingle (u "ST"))].

(* nmeatypes_get_prop.py:1944 *)
Definition def_gp_STMDRDEBUG : pdict :=
    [(u "laterror", ASingle (u "DE"));
     (u "lonerror", ASingle (u "DE"));
     (u "headingerror", ASingle (u "DE"));
     (u "speederror", ASingle (u "DE"));
     (u "heighterror", ASingle (u "DE"));
     (u "vverror", ASingle (u "DE"))].

(* nmeatypes_get_prop.py:1952 *)
Definition def_gp_STMDRSENMSG_3 : pdict :=
    [(u "msgtype", ASingle (u "IN"));
     (u "timestamp", ASingle (u "IN"));
     (u "odometer", ASingle (u "DE"));
     (u "reverse", ASingle (u "IN"))].

(* nmeatypes_get_prop.py:1958 *)
Definition def_gp_STMDRSENMSG_24 : pdict :=
    [(u "msgtype", ASingle (u "IN"));
     (u "timestamp", ASingle (u "IN"));
     (u "temperature", ASingle (u "DE"));
     (u "validity", ASingle (u "IN"))].

(* nmeatypes_get_prop.py:1964 *)
Definition def_gp_STMDRSENMSG_30 : pdict :=
    [(u "msgtype", ASingle (u "IN"));
     (u "timestamp", ASingle (u "IN"));
     (u "xacc", ASingle (u "DE"));
     (u "yacc", ASingle (u "DE"));
     (u "zacc", ASingle (u "DE"))].

(* nmeatypes_get_prop.py:1971 *)
Definition def_gp_STMDRSENMSG_31 : pdict :=
    [(u "msgtype", ASingle (u "IN"));
     (u "timestamp", ASingle (u "IN"));
     (u "xgyro", ASingle (u "DE"));
     (u "ygyro", ASingle (u "DE"));
     (u "zgyro", ASingle (u "DE"))].

(* nmeatypes_get_prop.py:1978 *)
Definition def_gp_STMDRMMFBKF : pdict :=
    [(u "cputime", ASingle (u "DE"));
     (u "elapsedtime", ASingle (u "DE"));
     (u "utcdeltaseconds", ASingle (u "DE"));
     (u "utcdeltams", ASingle (u "DE"));
     (u "posaccepted", ASingle (u "DE"));
     (u "reserved1", ASingle (u "ST"));
     (u "reserved2", ASingle (u "ST"));
     (u "measurementnoiselat", ASingle (u "DE"));
     (u "posmeasurementnoiselon", ASingle (u "DE"));
     (u "reserved3", ASingle (u "ST"));
     (u "reserved4", ASingle (u "ST"));
     (u "headingaccepted", ASingle (u "DE"));
     (u "reserved5", ASingle (u "ST"));
     (u "headingmeasurementnoise", ASingle (u "DE"));
     (u "reserved6", ASingle (u "ST"))].

(* nmeatypes_get_prop.py:1999 *)
Definition def_gp_SSNHRP : pdict :=
    [(u "msgId", ASingle (u "ST"));
     (u "utc", ASingle (u "TM"));
     (u "date", ASingle (u "DT"));
     (u "hdg", ASingle (u "DE"));
     (u "roll", ASingle (u "DE"));
     (u "pitch", ASingle (u "DE"));
     (u "hdgstd", ASingle (u "DE"));
     (u "rollstd", ASingle (u "DE"));
     (u "pitchstd", ASingle (u "DE"));
     (u "sip", ASingle (u "IN"));
     (u "attmode", ASingle (u "CH"));
     (u "magvar", ASingle (u "DE"));
     (u "magvardir", ASingle (u "LND"))].

(* nmeatypes_get_prop.py:2014 *)
Definition def_gp_SSNRBD : pdict :=
    [(u "msgId", ASingle (u "ST"));
     (u "utc", ASingle (u "TM"));
     (u "date", ASingle (u "DT"));
     (u "azi", ASingle (u "DE"));
     (u "ele", ASingle (u "DE"));
     (u "sip", ASingle (u "IN"));
     (u "quality", ASingle (u "CH"));
     (u "basemode", ASingle (u "CH"));
     (u "corrage", ASingle (u "DE"));
     (u "roverserial", ASingle (u "ST"));
     (u "baseid", ASingle (u "ST"))].

(* nmeatypes_get_prop.py:2027 *)
Definition def_gp_SSNRBP : pdict :=
    [(u "msgId", ASingle (u "ST"));
     (u "utc", ASingle (u "TM"));
     (u "date", ASingle (u "DT"));
     (u "baseN", ASingle (u "DE"));
     (u "baseE", ASingle (u "DE"));
     (u "baseU", ASingle (u "DE"));
     (u "sip", ASingle (u "IN"));
     (u "quality", ASingle (u "CH"));
     (u "basemode", ASingle (u "CH"));
     (u "corrage", ASingle (u "DE"));
     (u "roverserial", ASingle (u "ST"));
     (u "baseid", ASingle (u "ST"))].

(* nmeatypes_get_prop.py:2041 *)
Definition def_gp_SSNRBV : pdict :=
    [(u "msgId", ASingle (u "ST"));
     (u "utc", ASingle (u "TM"));
     (u "date", ASingle (u "DT"));
     (u "baserocN", ASingle (u "DE"));
     (u "baserocE", ASingle (u "DE"));
     (u "baserocU", ASingle (u "DE"));
     (u "sip", ASingle (u "IN"));
     (u "quality", ASingle (u "CH"));
     (u "basemode", ASingle (u "CH"));
     (u "corrage", ASingle (u "DE"));
     (u "roverserial", ASingle (u "ST"));
     (u "baseid", ASingle (u "ST"))].

(* nmeatypes_get_prop.py:2055 *)
Definition def_gp_SSNSNC : pdict :=
    [(u "msgId", ASingle (u "ST"));
     (u "rev", ASingle (u "CH"));
     (u "tim", ASingle (u "IN"));
     (u "week", ASingle (u "IN"));
     (u "group", AGroup (NStr (u "None")) [(u "cdidx", ASingle (u "ST"));
     (u "status", ASingle (u "QS"));
     (u "errcode", ASingle (u "ST"));
     (u "info", ASingle (u "ST"))])].

(* nmeatypes_get_prop.py:2074 *)
Definition def_gp_SSNTFM : pdict :=
    [(u "msgId", ASingle (u "ST"));
     (u "utc", ASingle (u "TM"));
     (u "heightind", ASingle (u "ST"));
     (u "usage2122", ASingle (u "ST"));
     (u "usage2324", ASingle (u "ST"));
     (u "usage252627", ASingle (u "ST"))].

(* nmeatypes_get_prop.py:2082 *)
Definition def_gp_STMSETPAROK : pdict :=
    [(u "msgId", ASingle (u "ST"));
     (u "status1", ASingle (u "ST"));
     (u "status2", ASingle (u "ST"));
     (u "status3", ASingle (u "ST"))].

(* nmeatypes_get_prop.py:2088 *)
Definition def_gp_STMINITGPSERROR : pdict :=
    [].

(* nmeatypes_get_prop.py:2089 *)
Definition def_gp_STMINITGPSOK : pdict :=
    [].

(* nmeatypes_get_prop.py:2090 *)
Definition def_gp_STMINITTIMEERROR : pdict :=
    [].

(* nmeatypes_get_prop.py:2091 *)
Definition def_gp_STMINITTIMEOK : pdict :=
    [].

(* nmeatypes_get_prop.py:48 NMEA_PAYLOADS_GET_PROP *)
Definition NMEA_PAYLOADS_GET_PROP : list (pystr * pdict) := [
  (u "KLDS", def_gp_KLDS) (* nmeatypes_get_prop.py:52 *);
  (u "KLSH", def_gp_KLSH) (* nmeatypes_get_prop.py:69 *);
  (u "KNDS", def_gp_KNDS) (* nmeatypes_get_prop.py:79 *);
  (u "KNSH", def_gp_KNSH) (* nmeatypes_get_prop.py:95 *);
  (u "KWDWPL", def_gp_KWDWPL) (* nmeatypes_get_prop.py:104 *);
  (u "MGNWPL", def_gp_MGNWPL) (* nmeatypes_get_prop.py:121 *);
  (u "GRME", def_gp_GRME) (* nmeatypes_get_prop.py:136 *);
  (u "GRMF", def_gp_GRMF) (* nmeatypes_get_prop.py:144 *);
  (u "GRMH", def_gp_GRMH) (* nmeatypes_get_prop.py:161 *);
  (u "GRMM", def_gp_GRMM) (* nmeatypes_get_prop.py:171 *);
  (u "GRMT", def_gp_GRMT) (* nmeatypes_get_prop.py:174 *);
  (u "GRMV", def_gp_GRMV) (* nmeatypes_get_prop.py:185 *);
  (u "GRMZ", def_gp_GRMZ) (* nmeatypes_get_prop.py:190 *);
  (u "GRMB", def_gp_GRMB) (* nmeatypes_get_prop.py:195 *);
  (u "UBX00", def_gp_UBX00) (* nmeatypes_get_prop.py:208 *);
  (u "UBX03", def_gp_UBX03) (* nmeatypes_get_prop.py:230 *);
  (u "UBX04", def_gp_UBX04) (* nmeatypes_get_prop.py:245 *);
  (u "UBX05", def_gp_UBX05) (* nmeatypes_get_prop.py:256 *);
  (u "ASHR", def_gp_ASHR) (* nmeatypes_get_prop.py:278 *);
  (u "ASHRALR", def_gp_ASHRALR) (* nmeatypes_get_prop.py:291 *);
  (u "ASHRARA", def_gp_ASHRARA) (* nmeatypes_get_prop.py:300 *);
  (u "ASHRARR", def_gp_ASHRARR) (* nmeatypes_get_prop.py:312 *);
  (u "ASHRATT", def_gp_ASHRATT) (* nmeatypes_get_prop.py:332 *);
  (u "ASHRBTS", def_gp_ASHRBTS) (* nmeatypes_get_prop.py:342 *);
  (u "ASHRCAP", def_gp_ASHRCAP) (* nmeatypes_get_prop.py:355 *);
  (u "ASHRCPA", def_gp_ASHRCPA) (* nmeatypes_get_prop.py:365 *);
  (u "ASHRCPO", def_gp_ASHRCPO) (* nmeatypes_get_prop.py:377 *);
  (u "ASHRDDM", def_gp_ASHRDDM) (* nmeatypes_get_prop.py:385 *);
  (u "ASHRDDS", def_gp_ASHRDDS) (* nmeatypes_get_prop.py:396 *);
  (u "ASHRHPR", def_gp_ASHRHPR) (* nmeatypes_get_prop.py:416 *);
  (u "ASHRLTN", def_gp_ASHRLTN) (* nmeatypes_get_prop.py:429 *);
  (u "ASHRMDM", def_gp_ASHRMDM) (* nmeatypes_get_prop.py:433 *);
  (u "ASHRPBN", def_gp_ASHRPBN) (* nmeatypes_get_prop.py:452 *);
  (u "ASHRPOS", def_gp_ASHRPOS) (* nmeatypes_get_prop.py:464 *);
  (u "ASHRPTT", def_gp_ASHRPTT) (* nmeatypes_get_prop.py:484 *);
  (u "ASHRPWR", def_gp_ASHRPWR) (* nmeatypes_get_prop.py:489 *);
  (u "ASHRRCS", def_gp_ASHRRCS) (* nmeatypes_get_prop.py:502 *);
  (u "ASHRSBD", def_gp_ASHRSBD) (* nmeatypes_get_prop.py:512 *);
  (u "ASHRSGA", def_gp_ASHRSGA) (* nmeatypes_get_prop.py:529 *);
  (u "ASHRSGL", def_gp_ASHRSGL) (* nmeatypes_get_prop.py:546 *);
  (u "ASHRSGO", def_gp_ASHRSGO) (* nmeatypes_get_prop.py:563 *);
  (u "ASHRSGP", def_gp_ASHRSGP) (* nmeatypes_get_prop.py:582 *);
  (u "ASHRSIR", def_gp_ASHRSIR) (* nmeatypes_get_prop.py:599 *);
  (u "ASHRSLB", def_gp_ASHRSLB) (* nmeatypes_get_prop.py:616 *);
  (u "ASHRSQZ", def_gp_ASHRSQZ) (* nmeatypes_get_prop.py:630 *);
  (u "ASHRSSB", def_gp_ASHRSSB) (* nmeatypes_get_prop.py:647 *);
  (u "ASHRTEM", def_gp_ASHRTEM) (* nmeatypes_get_prop.py:664 *);
  (u "ASHRTHS", def_gp_ASHRTHS) (* nmeatypes_get_prop.py:668 *);
  (u "ASHRTTT", def_gp_ASHRTTT) (* nmeatypes_get_prop.py:673 *);
  (u "ASHRVCR", def_gp_ASHRVCR) (* nmeatypes_get_prop.py:678 *);
  (u "ASHRVCT", def_gp_ASHRVCT) (* nmeatypes_get_prop.py:696 *);
  (u "ASHRVEL", def_gp_ASHRVEL) (* nmeatypes_get_prop.py:716 *);
  (u "FUGDP", def_gp_FUGDP) (* nmeatypes_get_prop.py:726 *);
  (u "GPPADV110", def_gp_GPPADV110) (* nmeatypes_get_prop.py:740 *);
  (u "GPPADV120", def_gp_GPPADV120) (* nmeatypes_get_prop.py:748 *);
  (u "TNLAVR", def_gp_TNLAVR) (* nmeatypes_get_prop.py:759 *);
  (u "TNLBPQ", def_gp_TNLBPQ) (* nmeatypes_get_prop.py:773 *);
  (u "TNLDG", def_gp_TNLDG) (* nmeatypes_get_prop.py:785 *);
  (u "TNLEVT", def_gp_TNLEVT) (* nmeatypes_get_prop.py:795 *);
  (u "TNLGGK", def_gp_TNLGGK) (* nmeatypes_get_prop.py:804 *);
  (u "TNLGGKx", def_gp_TNLGGKx) (* nmeatypes_get_prop.py:818 *);
  (u "TNLPJK", def_gp_TNLPJK) (* nmeatypes_get_prop.py:836 *);
  (u "TNLPJT", def_gp_TNLPJT) (* nmeatypes_get_prop.py:850 *);
  (u "TNLREX", def_gp_TNLREX) (* nmeatypes_get_prop.py:855 *);
  (u "TNLVGK", def_gp_TNLVGK) (* nmeatypes_get_prop.py:876 *);
  (u "TNLVHD", def_gp_TNLVHD) (* nmeatypes_get_prop.py:888 *);
  (u "FECGPATT", def_gp_FECGPATT) (* nmeatypes_get_prop.py:907 *);
  (u "FECGPHVE", def_gp_FECGPHVE) (* nmeatypes_get_prop.py:913 *);
  (u "LSR", def_gp_LSR) (* nmeatypes_get_prop.py:922 *);
  (u "LSVD", def_gp_LSVD) (* nmeatypes_get_prop.py:927 *);
  (u "INVMINR", def_gp_INVMINR) (* nmeatypes_get_prop.py:935 *);
  (u "INVMSTR", def_gp_INVMSTR) (* nmeatypes_get_prop.py:938 *);
  (u "INVMSLOPE", def_gp_INVMSLOPE) (* nmeatypes_get_prop.py:941 *);
  (u "INVMIMU", def_gp_INVMIMU) (* nmeatypes_get_prop.py:949 *);
  (u "INVMATTIT", def_gp_INVMATTIT) (* nmeatypes_get_prop.py:958 *);
  (u "AIR001", def_gp_AIR001) (* nmeatypes_get_prop.py:968 *);
  (u "AIR010", def_gp_AIR010) (* nmeatypes_get_prop.py:972 *);
  (u "AIR051", def_gp_AIR051) (* nmeatypes_get_prop.py:978 *);
  (u "AIR059", def_gp_AIR059) (* nmeatypes_get_prop.py:981 *);
  (u "AIR063", def_gp_AIR063) (* nmeatypes_get_prop.py:984 *);
  (u "AIR067", def_gp_AIR067) (* nmeatypes_get_prop.py:988 *);
  (u "AIR071", def_gp_AIR071) (* nmeatypes_get_prop.py:996 *);
  (u "AIR073", def_gp_AIR073) (* nmeatypes_get_prop.py:999 *);
  (u "AIR075", def_gp_AIR075) (* nmeatypes_get_prop.py:1002 *);
  (u "AIR081", def_gp_AIR081) (* nmeatypes_get_prop.py:1005 *);
  (u "AIR087", def_gp_AIR087) (* nmeatypes_get_prop.py:1008 *);
  (u "AIR101", def_gp_AIR101) (* nmeatypes_get_prop.py:1011 *);
  (u "AIR105", def_gp_AIR105) (* nmeatypes_get_prop.py:1015 *);
  (u "AIR391", def_gp_AIR391) (* nmeatypes_get_prop.py:1018 *);
  (u "AIR401", def_gp_AIR401) (* nmeatypes_get_prop.py:1021 *);
  (u "AIR411", def_gp_AIR411) (* nmeatypes_get_prop.py:1024 *);
  (u "AIR421", def_gp_AIR421) (* nmeatypes_get_prop.py:1027 *);
  (u "AIR433", def_gp_AIR433) (* nmeatypes_get_prop.py:1030 *);
  (u "AIR435", def_gp_AIR435) (* nmeatypes_get_prop.py:1033 *);
  (u "AIR436", def_gp_AIR436) (* nmeatypes_get_prop.py:1036 *);
  (u "AIR437", def_gp_AIR437) (* nmeatypes_get_prop.py:1039 *);
  (u "AIR491", def_gp_AIR491) (* nmeatypes_get_prop.py:1040 *);
  (u "AIR650", def_gp_AIR650) (* nmeatypes_get_prop.py:1043 *);
  (u "AIR865", def_gp_AIR865) (* nmeatypes_get_prop.py:1046 *);
  (u "AIR867", def_gp_AIR867) (* nmeatypes_get_prop.py:1049 *);
  (u "AIR6011", def_gp_AIR6011) (* nmeatypes_get_prop.py:1052 *);
  (u "AIRSPF", def_gp_AIRSPF) (* nmeatypes_get_prop.py:1056 *);
  (u "AIRSPF5", def_gp_AIRSPF5) (* nmeatypes_get_prop.py:1059 *);
  (u "QTMACK", def_gp_QTMACK) (* nmeatypes_get_prop.py:1072 *);
  (u "QTMNAK", def_gp_QTMNAK) (* nmeatypes_get_prop.py:1075 *);
  (u "QTMANTENNASTATUS", def_gp_QTMANTENNASTATUS) (* nmeatypes_get_prop.py:1079 *);
  (u "QTMCFGAIC", def_gp_QTMCFGAIC) (* nmeatypes_get_prop.py:1084 *);
  (u "QTMCFGANTDELTA", def_gp_QTMCFGANTDELTA) (* nmeatypes_get_prop.py:1088 *);
  (u "QTMCFGANTINF", def_gp_QTMCFGANTINF) (* nmeatypes_get_prop.py:1094 *);
  (u "QTMCFGBLD", def_gp_QTMCFGBLD) (* nmeatypes_get_prop.py:1100 *);
  (u "QTMCFGCNST", def_gp_QTMCFGCNST) (* nmeatypes_get_prop.py:1104 *);
  (u "QTMCFGDR", def_gp_QTMCFGDR) (* nmeatypes_get_prop.py:1113 *);
  (u "QTMCFGDRHOT", def_gp_QTMCFGDRHOT) (* nmeatypes_get_prop.py:1117 *);
  (u "QTMCFGDRRTD", def_gp_QTMCFGDRRTD) (* nmeatypes_get_prop.py:1118 *);
  (u "QTMCFGEINSMSG", def_gp_QTMCFGEINSMSG) (* nmeatypes_get_prop.py:1119 *);
  (u "QTMCFGELETHD", def_gp_QTMCFGELETHD) (* nmeatypes_get_prop.py:1126 *);
  (u "QTMCFGFIXRATE", def_gp_QTMCFGFIXRATE) (* nmeatypes_get_prop.py:1130 *);
  (u "QTMCFGGEOFENCE", def_gp_QTMCFGGEOFENCE) (* nmeatypes_get_prop.py:1134 *);
  (u "QTMCFGGEOFENCE_DIS", def_gp_QTMCFGGEOFENCE_DIS) (* nmeatypes_get_prop.py:1144 *);
  (u "QTMCFGGEOFENCE_POLY", def_gp_QTMCFGGEOFENCE_POLY) (* nmeatypes_get_prop.py:1149 *);
  (u "QTMCFGGEOSEP", def_gp_QTMCFGGEOSEP) (* nmeatypes_get_prop.py:1164 *);
  (u "QTMCFGIMUINT", def_gp_QTMCFGIMUINT) (* nmeatypes_get_prop.py:1169 *);
  (u "QTMCFGIMUTC", def_gp_QTMCFGIMUTC) (* nmeatypes_get_prop.py:1176 *);
  (u "QTMCFGLA", def_gp_QTMCFGLA) (* nmeatypes_get_prop.py:1180 *);
  (u "QTMCFGLAM", def_gp_QTMCFGLAM) (* nmeatypes_get_prop.py:1187 *);
  (u "QTMCFGMSGRATE", def_gp_QTMCFGMSGRATE) (* nmeatypes_get_prop.py:1191 *);
  (u "QTMCFGMSGRATE_NOVER", def_gp_QTMCFGMSGRATE_NOVER) (* nmeatypes_get_prop.py:1197 *);
  (u "QTMCFGMSGRATE_INTF", def_gp_QTMCFGMSGRATE_INTF) (* nmeatypes_get_prop.py:1202 *);
  (u "QTMCFGMSGRATE_INTFNOVER", def_gp_QTMCFGMSGRATE_INTFNOVER) (* nmeatypes_get_prop.py:1210 *);
  (u "QTMCFGNAVMODE", def_gp_QTMCFGNAVMODE) (* nmeatypes_get_prop.py:1217 *);
  (u "QTMCFGNMEADP", def_gp_QTMCFGNMEADP) (* nmeatypes_get_prop.py:1221 *);
  (u "QTMCFGNMEATID", def_gp_QTMCFGNMEATID) (* nmeatypes_get_prop.py:1230 *);
  (u "QTMCFGODO", def_gp_QTMCFGODO) (* nmeatypes_get_prop.py:1235 *);
  (u "QTMCFGPPS", def_gp_QTMCFGPPS) (* nmeatypes_get_prop.py:1240 *);
  (u "QTMCFGPROT", def_gp_QTMCFGPROT) (* nmeatypes_get_prop.py:1249 *);
  (u "QTMCFGRCVRMODE", def_gp_QTMCFGRCVRMODE) (* nmeatypes_get_prop.py:1256 *);
  (u "QTMCFGRSID", def_gp_QTMCFGRSID) (* nmeatypes_get_prop.py:1260 *);
  (u "QTMCFGRTCM", def_gp_QTMCFGRTCM) (* nmeatypes_get_prop.py:1264 *);
  (u "QTMCFGRTK", def_gp_QTMCFGRTK) (* nmeatypes_get_prop.py:1274 *);
  (u "QTMCFGRTKSRCTYPE", def_gp_QTMCFGRTKSRCTYPE) (* nmeatypes_get_prop.py:1279 *);
  (u "QTMMCFGRTKSRCTYPE", def_gp_QTMMCFGRTKSRCTYPE) (* nmeatypes_get_prop.py:1283 *);
  (u "QTMCFGSAT", def_gp_QTMCFGSAT) (* nmeatypes_get_prop.py:1287 *);
  (u "QTMCFGSAT_LOW", def_gp_QTMCFGSAT_LOW) (* nmeatypes_get_prop.py:1294 *);
  (u "QTMCFGSBAS", def_gp_QTMCFGSBAS) (* nmeatypes_get_prop.py:1300 *);
  (u "QTMCFGSIGGRP", def_gp_QTMCFGSIGGRP) (* nmeatypes_get_prop.py:1304 *);
  (u "QTMCFGSIGNAL", def_gp_QTMCFGSIGNAL) (* nmeatypes_get_prop.py:1308 *);
  (u "QTMCFGSIGNAL2", def_gp_QTMCFGSIGNAL2) (* nmeatypes_get_prop.py:1317 *);
  (u "QTMCFGSTATICHOLD", def_gp_QTMCFGSTATICHOLD) (* nmeatypes_get_prop.py:1326 *);
  (u "QTMCFGSVIN", def_gp_QTMCFGSVIN) (* nmeatypes_get_prop.py:1330 *);
  (u "QTMCFGUART", def_gp_QTMCFGUART) (* nmeatypes_get_prop.py:1339 *);
  (u "QTMCFGVEHMOT", def_gp_QTMCFGVEHMOT) (* nmeatypes_get_prop.py:1348 *);
  (u "QTMCFGWN", def_gp_QTMCFGWN) (* nmeatypes_get_prop.py:1353 *);
  (u "QTMDEBUGON", def_gp_QTMDEBUGON) (* nmeatypes_get_prop.py:1357 *);
  (u "QTMDEBUGOFF", def_gp_QTMDEBUGOFF) (* nmeatypes_get_prop.py:1358 *);
  (u "QTMDOP", def_gp_QTMDOP) (* nmeatypes_get_prop.py:1359 *);
  (u "QTMDRCAL", def_gp_QTMDRCAL) (* nmeatypes_get_prop.py:1370 *);
  (u "QTMDRCLR", def_gp_QTMDRCLR) (* nmeatypes_get_prop.py:1375 *);
  (u "QTMDRPVA", def_gp_QTMDRPVA) (* nmeatypes_get_prop.py:1376 *);
  (u "QTMDRSAVE", def_gp_QTMDRSAVE) (* nmeatypes_get_prop.py:1393 *);
  (u "QTMEOE", def_gp_QTMEOE) (* nmeatypes_get_prop.py:1394 *);
  (u "QTMEPE", def_gp_QTMEPE) (* nmeatypes_get_prop.py:1401 *);
  (u "QTMGEOFENCESTATUS", def_gp_QTMGEOFENCESTATUS) (* nmeatypes_get_prop.py:1409 *);
  (u "QTMGETUTC", def_gp_QTMGETUTC) (* nmeatypes_get_prop.py:1410 *);
  (u "QTMGNSSSTART", def_gp_QTMGNSSSTART) (* nmeatypes_get_prop.py:1422 *);
  (u "QTMGNSSSTOP", def_gp_QTMGNSSSTOP) (* nmeatypes_get_prop.py:1423 *);
  (u "QTMGPS", def_gp_QTMGPS) (* nmeatypes_get_prop.py:1424 *);
  (u "QTMJAMMINGSTATUS", def_gp_QTMJAMMINGSTATUS) (* nmeatypes_get_prop.py:1438 *);
  (u "QTMIMU", def_gp_QTMIMU) (* nmeatypes_get_prop.py:1442 *);
  (u "QTMIMUTYPE", def_gp_QTMIMUTYPE) (* nmeatypes_get_prop.py:1453 *);
  (u "QTMINS", def_gp_QTMINS) (* nmeatypes_get_prop.py:1457 *);
  (u "QTMLS", def_gp_QTMLS) (* nmeatypes_get_prop.py:1470 *);
  (u "QTMNAV", def_gp_QTMNAV) (* nmeatypes_get_prop.py:1483 *);
  (u "QTMODO", def_gp_QTMODO) (* nmeatypes_get_prop.py:1528 *);
  (u "QTMPL", def_gp_QTMPL) (* nmeatypes_get_prop.py:1534 *);
  (u "QTMPVT", def_gp_QTMPVT) (* nmeatypes_get_prop.py:1550 *);
  (u "QTMQVER", def_gp_QTMQVER) (* nmeatypes_get_prop.py:1571 *);
  (u "QTMRESETODO", def_gp_QTMRESETODO) (* nmeatypes_get_prop.py:1579 *);
  (u "QTMRESTOREPAR", def_gp_QTMRESTOREPAR) (* nmeatypes_get_prop.py:1580 *);
  (u "QTMSAVEPAR", def_gp_QTMSAVEPAR) (* nmeatypes_get_prop.py:1581 *);
  (u "QTMSENMSG", def_gp_QTMSENMSG) (* nmeatypes_get_prop.py:1582 *);
  (u "QTMSN", def_gp_QTMSN) (* nmeatypes_get_prop.py:1592 *);
  (u "QTMSN_ALT", def_gp_QTMSN_ALT) (* nmeatypes_get_prop.py:1598 *);
  (u "QTMSTD", def_gp_QTMSTD) (* nmeatypes_get_prop.py:1604 *);
  (u "QTMSVINSTATUS", def_gp_QTMSVINSTATUS) (* nmeatypes_get_prop.py:1621 *);
  (u "QTMTAR", def_gp_QTMTAR) (* nmeatypes_get_prop.py:1634 *);
  (u "QTMTXT", def_gp_QTMTXT) (* nmeatypes_get_prop.py:1648 *);
  (u "QTMUNIQID", def_gp_QTMUNIQID) (* nmeatypes_get_prop.py:1655 *);
  (u "QTMVEHATT", def_gp_QTMVEHATT) (* nmeatypes_get_prop.py:1660 *);
  (u "QTMVEHMOT", def_gp_QTMVEHMOT) (* nmeatypes_get_prop.py:1670 *);
  (u "QTMVEHMSG", def_gp_QTMVEHMSG) (* nmeatypes_get_prop.py:1679 *);
  (u "QTMVEL", def_gp_QTMVEL) (* nmeatypes_get_prop.py:1689 *);
  (u "QTMVER", def_gp_QTMVER) (* nmeatypes_get_prop.py:1702 *);
  (u "QTMVERNO", def_gp_QTMVERNO) (* nmeatypes_get_prop.py:1709 *);
  (u "STMPPSDATA", def_gp_STMPPSDATA) (* nmeatypes_get_prop.py:1718 *);
  (u "STMCPU", def_gp_STMCPU) (* nmeatypes_get_prop.py:1748 *);
  (u "STMTG", def_gp_STMTG) (* nmeatypes_get_prop.py:1753 *);
  (u "STMTS", def_gp_STMTS) (* nmeatypes_get_prop.py:1775 *);
  (u "STMSBAS", def_gp_STMSBAS) (* nmeatypes_get_prop.py:1790 *);
  (u "STMTEMP", def_gp_STMTEMP) (* nmeatypes_get_prop.py:1798 *);
  (u "STMDRCONFID", def_gp_STMDRCONFID) (* nmeatypes_get_prop.py:1803 *);
  (u "STMDRBSD", def_gp_STMDRBSD) (* nmeatypes_get_prop.py:1818 *);
  (u "STMDRGPS", def_gp_STMDRGPS) (* nmeatypes_get_prop.py:1828 *);
  (u "STMDRPVA", def_gp_STMDRPVA) (* nmeatypes_get_prop.py:1841 *);
  (u "STMDRPVASD", def_gp_STMDRPVASD) (* nmeatypes_get_prop.py:1854 *);
  (u "STMDRSINT", def_gp_STMDRSINT) (* nmeatypes_get_prop.py:1873 *);
  (u "STMDRSVF", def_gp_STMDRSVF) (* nmeatypes_get_prop.py:1889 *);
  (u "STMDRUPD", def_gp_STMDRUPD) (* nmeatypes_get_prop.py:1899 *);
  (u "STMDRSTYPE", def_gp_STMDRSTYPE) (* nmeatypes_get_prop.py:1900 *);
  (u "STMDRCAL", def_gp_STMDRCAL) (* nmeatypes_get_prop.py:1903 *);
  (u "STMDR1", def_gp_STMDR1) (* nmeatypes_get_prop.py:1913 *);
  (u "STMDR2", def_gp_STMDR2) (* nmeatypes_get_prop.py:1928 *);
  (u "STMDREPE", def_gp_STMDREPE) (* nmeatypes_get_prop.py:1940 *);
  (u "STMDRDEBUG", def_gp_STMDRDEBUG) (* nmeatypes_get_prop.py:1944 *);
  (u "STMDRSENMSG_3", def_gp_STMDRSENMSG_3) (* nmeatypes_get_prop.py:1952 *);
  (u "STMDRSENMSG_24", def_gp_STMDRSENMSG_24) (* nmeatypes_get_prop.py:1958 *);
  (u "STMDRSENMSG_30", def_gp_STMDRSENMSG_30) (* nmeatypes_get_prop.py:1964 *);
  (u "STMDRSENMSG_31", def_gp_STMDRSENMSG_31) (* nmeatypes_get_prop.py:1971 *);
  (u "STMDRMMFBKF", def_gp_STMDRMMFBKF) (* nmeatypes_get_prop.py:1978 *);
  (u "SSNHRP", def_gp_SSNHRP) (* nmeatypes_get_prop.py:1999 *);
  (u "SSNRBD", def_gp_SSNRBD) (* nmeatypes_get_prop.py:2014 *);
  (u "SSNRBP", def_gp_SSNRBP) (* nmeatypes_get_prop.py:2027 *);
  (u "SSNRBV", def_gp_SSNRBV) (* nmeatypes_get_prop.py:2041 *);
  (u "SSNSNC", def_gp_SSNSNC) (* nmeatypes_get_prop.py:2055 *);
  (u "SSNTFM", def_gp_SSNTFM) (* nmeatypes_get_prop.py:2074 *);
  (u "STMSETPAROK", def_gp_STMSETPAROK) (* nmeatypes_get_prop.py:2082 *);
  (u "STMINITGPSERROR", def_gp_STMINITGPSERROR) (* nmeatypes_get_prop.py:2088 *);
  (u "STMINITGPSOK", def_gp_STMINITGPSOK) (* nmeatypes_get_prop.py:2089 *);
  (u "STMINITTIMEERROR", def_gp_STMINITTIMEERROR) (* nmeatypes_get_prop.py:2090 *);
  (u "STMINITTIMEOK", def_gp_STMINITTIMEOK) (* nmeatypes_get_prop.py:2091 *)
].

(* nmeatypes_set.py:30 NMEA_PAYLOADS_SET *)
Definition NMEA_PAYLOADS_SET : list (pystr * pdict) := [

].

(* nmeatypes_set_prop.py:39 *)
Definition def_sp_AIR002 : pdict :=
    [].

(* nmeatypes_set_prop.py:40 *)
Definition def_sp_AIR003 : pdict :=
    [].

(* nmeatypes_set_prop.py:41 *)
Definition def_sp_AIR004 : pdict :=
    [].

(* nmeatypes_set_prop.py:42 *)
Definition def_sp_AIR005 : pdict :=
    [].

(* nmeatypes_set_prop.py:43 *)
Definition def_sp_AIR006 : pdict :=
    [].

(* nmeatypes_set_prop.py:44 *)
Definition def_sp_AIR007 : pdict :=
    [].

(* nmeatypes_set_prop.py:45 *)
Definition def_sp_AIR050 : pdict :=
    [(u "time", ASingle (u "IN"))].

(* nmeatypes_set_prop.py:48 *)
Definition def_sp_AIR058 : pdict :=
    [(u "minsnr", ASingle (u "IN"))].

(* nmeatypes_set_prop.py:51 *)
Definition def_sp_AIR062 : pdict :=
    [(u "type", ASingle (u "IN"));
     (u "rate", ASingle (u "IN"))].

(* nmeatypes_set_prop.py:55 *)
Definition def_sp_AIR066 : pdict :=
    [(u "gpsEnabled", ASingle (u "IN"));
     (u "glonassEnabled", ASingle (u "IN"));
     (u "galileoEnabled", ASingle (u "IN"));
     (u "bdsEnabled", ASingle (u "IN"));
     (u "qzssEnabled", ASingle (u "IN"));
     (u "navicEnabled", ASingle (u "IN"))].

(* nmeatypes_set_prop.py:63 *)
Definition def_sp_AIR070 : pdict :=
    [(u "speedThreshold", ASingle (u "IN"))].

(* nmeatypes_set_prop.py:66 *)
Definition def_sp_AIR072 : pdict :=
    [(u "degree", ASingle (u "IN"))].

(* nmeatypes_set_prop.py:69 *)
Definition def_sp_AIR074 : pdict :=
    [(u "enabled", ASingle (u "IN"))].

(* nmeatypes_set_prop.py:72 *)
Definition def_sp_AIR080 : pdict :=
    [(u "navMode", ASingle (u "IN"))].

(* nmeatypes_set_prop.py:75 *)
Definition def_sp_AIR086 : pdict :=
    [(u "status", ASingle (u "IN"))].

(* nmeatypes_set_prop.py:78 *)
Definition def_sp_AIR100 : pdict :=
    [(u "nmeaMode", ASingle (u "IN"));
     (u "reserved", ASingle (u "IN"))].

(* nmeatypes_set_prop.py:82 *)
Definition def_sp_AIR104 : pdict :=
    [(u "dualBandEnabled", ASingle (u "IN"))].

(* nmeatypes_set_prop.py:85 *)
Definition def_sp_AIR382 : pdict :=
    [(u "enabled", ASingle (u "IN"))].

(* nmeatypes_set_prop.py:88 *)
Definition def_sp_AIR391 : pdict :=
    [(u "cmdType", ASingle (u "IN"))].

(* nmeatypes_set_prop.py:91 *)
Definition def_sp_AIR400 : pdict :=
    [(u "mode", ASingle (u "IN"))].

(* nmeatypes_set_prop.py:94 *)
Definition def_sp_AIR410 : pdict :=
    [(u "enabled", ASingle (u "IN"))].

(* nmeatypes_set_prop.py:97 *)
Definition def_sp_AIR420 : pdict :=
    [(u "enabled", ASingle (u "IN"))].

(* nmeatypes_set_prop.py:100 *)
Definition def_sp_AIR432 : pdict :=
    [(u "mode", ASingle (u "IN"))].

(* nmeatypes_set_prop.py:103 *)
Definition def_sp_AIR434 : pdict :=
    [(u "enabled", ASingle (u "IN"))].

(* nmeatypes_set_prop.py:106 *)
Definition def_sp_AIR436 : pdict :=
    [(u "enabled", ASingle (u "IN"))].

(* nmeatypes_set_prop.py:109 *)
Definition def_sp_AIR437 : pdict :=
    [].

(* nmeatypes_set_prop.py:110 *)
Definition def_sp_AIR490 : pdict :=
    [(u "enabled", ASingle (u "IN"))].

(* nmeatypes_set_prop.py:113 *)
Definition def_sp_AIR511 : pdict :=
    [].

(* nmeatypes_set_prop.py:114 *)
Definition def_sp_AIR512 : pdict :=
    [].

(* nmeatypes_set_prop.py:115 *)
Definition def_sp_AIR513 : pdict :=
    [].

(* nmeatypes_set_prop.py:116 *)
Definition def_sp_AIR650 : pdict :=
    [(u "second", ASingle (u "IN"))].

(* nmeatypes_set_prop.py:119 *)
Definition def_sp_AIR752 : pdict :=
    [(u "ppsType", ASingle (u "IN"))].

(* nmeatypes_set_prop.py:122 *)
Definition def_sp_AIR864 : pdict :=
    [(u "portType", ASingle (u "IN"));
     (u "portIndex", ASingle (u "IN"));
     (u "baudrate", ASingle (u "IN"))].

(* nmeatypes_set_prop.py:127 *)
Definition def_sp_AIR866 : pdict :=
    [(u "portType", ASingle (u "IN"));
     (u "portIndex", ASingle (u "IN"));
     (u "flowControl", ASingle (u "IN"))].

(* nmeatypes_set_prop.py:132 *)
Definition def_sp_AIR6010 : pdict :=
    [(u "type", ASingle (u "IN"));
     (u "rate", ASingle (u "IN"))].

(* nmeatypes_set_prop.py:139 *)
Definition def_sp_GRMI : pdict :=
    [(u "lat", ASingle (u "LA"));
     (u "NS", ASingle (u "LAD"));
     (u "lon", ASingle (u "LN"));
     (u "EW", ASingle (u "LND"));
     (u "date", ASingle (u "DT"));
     (u "time", ASingle (u "TM"));
     (u "rcvr_cmd", ASingle (u "CH"))].

(* nmeatypes_set_prop.py:148 *)
Definition def_sp_GRMC : pdict :=
    [(u "fix", ASingle (u "CH"));
     (u "alt", ASingle (u "DE"));
     (u "dtm", ASingle (u "ST"));
     (u "smAxis", ASingle (u "DE"));
     (u "iffac", ASingle (u "DE"));
     (u "xecc", ASingle (u "DE"));
     (u "yecc", ASingle (u "DE"));
     (u "zecc", ASingle (u "DE"));
     (u "diff", ASingle (u "CH"));
     (u "baudRate", ASingle (u "IN"));
     (u "vfilt", ASingle (u "IN"));
     (u "reserved1", ASingle (u "ST"));
     (u "reserved2", ASingle (u "ST"));
     (u "drtime", ASingle (u "IN"))].

(* nmeatypes_set_prop.py:164 *)
Definition def_sp_GRMC1 : pdict :=
    [(u "nmeatim", ASingle (u "IN"));
     (u "bphase", ASingle (u "IN"));
     (u "autopos", ASingle (u "IN"));
     (u "dgpsfr", ASingle (u "DE"));
     (u "dgpsbr", ASingle (u "IN"));
     (u "dgpssc", ASingle (u "IN"));
     (u "nmeaver", ASingle (u "IN"));
     (u "dgpsmod", ASingle (u "CH"));
     (u "pwrsave", ASingle (u "CH"));
     (u "attran", ASingle (u "IN"));
     (u "autopwr", ASingle (u "IN"));
     (u "extpwr", ASingle (u "IN"))].

(* nmeatypes_set_prop.py:178 *)
Definition def_sp_GRMO : pdict :=
    [(u "msgId", ASingle (u "ST"));
     (u "tgtmode", ASingle (u "IN"))].

(* nmeatypes_set_prop.py:182 *)
Definition def_sp_GRMW : pdict :=
    [(u "wptId", ASingle (u "ST"));
     (u "alt", ASingle (u "DE"));
     (u "symnum", ASingle (u "HX"));
     (u "comment", ASingle (u "ST"))].

(* nmeatypes_set_prop.py:205 *)
Definition def_sp_INVCRES : pdict :=
    [(u "value", ASingle (u "IN"))].

(* nmeatypes_set_prop.py:208 *)
Definition def_sp_INVCSTR : pdict :=
    [(u "value", ASingle (u "IN"))].

(* nmeatypes_set_prop.py:211 *)
Definition def_sp_INVMSLOPE : pdict :=
    [(u "status", ASingle (u "IN"))].

(* nmeatypes_set_prop.py:214 *)
Definition def_sp_LSC : pdict :=
    [(u "msgType", ASingle (u "ST"));
     (u "value", ASingle (u "IN"))].

(* nmeatypes_set_prop.py:222 *)
Definition def_sp_QTMBKP : pdict :=
    [(u "second", ASingle (u "IN"))].

(* nmeatypes_set_prop.py:255 *)
Definition def_sp_QTMCFGPPS_DIS : pdict :=
    [(u "status", ASingle (u "QS"));
     (u "ppsindex", ASingle (u "IN"));
     (u "enable", ASingle (u "IN"))].

(* nmeatypes_set_prop.py:277 *)
Definition def_sp_QTMCFGUART_BAUD : pdict :=
    [(u "status", ASingle (u "QS"));
     (u "portid", ASingle (u "IN"));
     (u "baudrate", ASingle (u "IN"))].

(* nmeatypes_set_prop.py:283 *)
Definition def_sp_QTMCFGUART_CURR : pdict :=
    [(u "status", ASingle (u "QS"));
     (u "baudrate", ASingle (u "IN"));
     (u "databit", ASingle (u "IN"));
     (u "parity", ASingle (u "IN"));
     (u "stopbit", ASingle (u "IN"));
     (u "flowctrl", ASingle (u "IN"))].

(* nmeatypes_set_prop.py:292 *)
Definition def_sp_QTMCFGUART_CURRBAUD : pdict :=
    [(u "status", ASingle (u "QS"));
     (u "baudrate", ASingle (u "IN"))].

(* nmeatypes_set_prop.py:296 *)
Definition def_sp_QTMCOLD : pdict :=
    [].

(* nmeatypes_set_prop.py:297 *)
Definition def_sp_QTMDEBUGOFF : pdict :=
    [].

(* nmeatypes_set_prop.py:298 *)
Definition def_sp_QTMDEBUGON : pdict :=
    [].

(* nmeatypes_set_prop.py:299 *)
Definition def_sp_QTMDRCLR : pdict :=
    [].

(* nmeatypes_set_prop.py:300 *)
Definition def_sp_QTMDRSAVE : pdict :=
    [].

(* nmeatypes_set_prop.py:301 *)
Definition def_sp_QTMGNSSSTART : pdict :=
    [].

(* nmeatypes_set_prop.py:302 *)
Definition def_sp_QTMGNSSSTOP : pdict :=
    [].

(* nmeatypes_set_prop.py:303 *)
Definition def_sp_QTMHOT : pdict :=
    [].

(* nmeatypes_set_prop.py:304 *)
Definition def_sp_QTMRESETODO : pdict :=
    [].

(* nmeatypes_set_prop.py:305 *)
Definition def_sp_QTMRESTOREPAR : pdict :=
    [].

(* nmeatypes_set_prop.py:306 *)
Definition def_sp_QTMSAVEPAR : pdict :=
    [].

(* nmeatypes_set_prop.py:307 *)
Definition def_sp_QTMSRR : pdict :=
    [].

(* nmeatypes_set_prop.py:308 *)
Definition def_sp_QTMWARM : pdict :=
    [].

(* nmeatypes_set_prop.py:313 *)
Definition def_sp_STMCOLD : pdict :=
    [].

(* nmeatypes_set_prop.py:314 *)
Definition def_sp_STMWARM : pdict :=
    [].

(* nmeatypes_set_prop.py:315 *)
Definition def_sp_STMEPHEM : pdict :=
    [(u "satID", ASingle (u "IN"));
     (u "ephdatalen", ASingle (u "IN"));
     (u "ephdata", ASingle (u "HX"))].

(* nmeatypes_set_prop.py:320 *)
Definition def_sp_STMHOT : pdict :=
    [].

(* nmeatypes_set_prop.py:321 *)
Definition def_sp_STMSRR : pdict :=
    [].

(* nmeatypes_set_prop.py:322 *)
Definition def_sp_STMSAVEPAR : pdict :=
    [].

(* nmeatypes_set_prop.py:323 *)
Definition def_sp_STMRESTOREPAR : pdict :=
    [].

(* nmeatypes_set_prop.py:324 *)
Definition def_sp_STMSETPAR : pdict :=
    [(u "parm1", ASingle (u "IN"));
     (u "parm2", ASingle (u "IN"));
     (u "parm3", ASingle (u "IN"));
     (u "parm4", ASingle (u "IN"));
     (u "parm5", ASingle (u "ST"))].

(* nmeatypes_set_prop.py:331 *)
Definition def_sp_STMIMUSELFTESTCMD : pdict :=
    [(u "imucat", ASingle (u "IN"))].

(* nmeatypes_set_prop.py:332 *)
Definition def_sp_STMINITGPS : pdict :=
    [(u "lat", ASingle (u "LA"));
     (u "NS", ASingle (u "LAD"));
     (u "lon", ASingle (u "LN"));
     (u "EW", ASingle (u "LND"));
     (u "alt", ASingle (u "DE"));
     (u "day", ASingle (u "IN"));
     (u "month", ASingle (u "IN"));
     (u "year", ASingle (u "IN"));
     (u "hour", ASingle (u "IN"));
     (u "minute", ASingle (u "IN"));
     (u "second", ASingle (u "IN"))].

(* nmeatypes_set_prop.py:345 *)
Definition def_sp_STMINITTIME : pdict :=
    [(u "day", ASingle (u "IN"));
     (u "month", ASingle (u "IN"));
     (u "year", ASingle (u "IN"));
     (u "hour", ASingle (u "IN"));
     (u "minute", ASingle (u "IN"));
     (u "second", ASingle (u "IN"))].

(* nmeatypes_set_prop.py:353 *)
Definition def_sp_STMDRMMFB : pdict :=
    [(u "timestamp", ASingle (u "DE"));
     (u "latval", ASingle (u "IN"));
     (u "lonval", ASingle (u "IN"));
     (u "heightval", ASingle (u "IN"));
     (u "headingval", ASingle (u "IN"));
     (u "lat", ASingle (u "DE"));
     (u "lon", ASingle (u "DE"));
     (u "height", ASingle (u "DE"));
     (u "heading", ASingle (u "DE"));
     (u "laterr", ASingle (u "DE"));
     (u "lonerr", ASingle (u "DE"));
     (u "heighterr", ASingle (u "DE"));
     (u "headingerr", ASingle (u "DE"))].

(* nmeatypes_set_prop.py:371 *)
Definition def_sp_UBX40 : pdict :=
    [(u "msgId", ASingle (u "ST"));
     (u "id", ASingle (u "ST"));
     (u "rddc", ASingle (u "IN"));
     (u "rus1", ASingle (u "IN"));
     (u "rus2", ASingle (u "IN"));
     (u "rusb", ASingle (u "IN"));
     (u "rspi", ASingle (u "IN"));
     (u "reserved", ASingle (u "IN"))].

(* nmeatypes_set_prop.py:381 *)
Definition def_sp_UBX41 : pdict :=
    [(u "msgId", ASingle (u "ST"));
     (u "portId", ASingle (u "IN"));
     (u "inProto", ASingle (u "HX"));
     (u "outProto", ASingle (u "HX"));
     (u "baudRate", ASingle (u "IN"));
     (u "autobauding", ASingle (u "IN"))].

(* nmeatypes_set_prop.py:33 NMEA_PAYLOADS_SET_PROP *)
Definition NMEA_PAYLOADS_SET_PROP : list (pystr * pdict) := [
  (u "AIR002", def_sp_AIR002) (* nmeatypes_set_prop.py:39 *);
  (u "AIR003", def_sp_AIR003) (* nmeatypes_set_prop.py:40 *);
  (u "AIR004", def_sp_AIR004) (* nmeatypes_set_prop.py:41 *);
  (u "AIR005", def_sp_AIR005) (* nmeatypes_set_prop.py:42 *);
  (u "AIR006", def_sp_AIR006) (* nmeatypes_set_prop.py:43 *);
  (u "AIR007", def_sp_AIR007) (* nmeatypes_set_prop.py:44 *);
  (u "AIR050", def_sp_AIR050) (* nmeatypes_set_prop.py:45 *);
  (u "AIR058", def_sp_AIR058) (* nmeatypes_set_prop.py:48 *);
  (u "AIR062", def_sp_AIR062) (* nmeatypes_set_prop.py:51 *);
  (u "AIR066", def_sp_AIR066) (* nmeatypes_set_prop.py:55 *);
  (u "AIR070", def_sp_AIR070) (* nmeatypes_set_prop.py:63 *);
  (u "AIR072", def_sp_AIR072) (* nmeatypes_set_prop.py:66 *);
  (u "AIR074", def_sp_AIR074) (* nmeatypes_set_prop.py:69 *);
  (u "AIR080", def_sp_AIR080) (* nmeatypes_set_prop.py:72 *);
  (u "AIR086", def_sp_AIR086) (* nmeatypes_set_prop.py:75 *);
  (u "AIR100", def_sp_AIR100) (* nmeatypes_set_prop.py:78 *);
  (u "AIR104", def_sp_AIR104) (* nmeatypes_set_prop.py:82 *);
  (u "AIR382", def_sp_AIR382) (* nmeatypes_set_prop.py:85 *);
  (u "AIR391", def_sp_AIR391) (* nmeatypes_set_prop.py:88 *);
  (u "AIR400", def_sp_AIR400) (* nmeatypes_set_prop.py:91 *);
  (u "AIR410", def_sp_AIR410) (* nmeatypes_set_prop.py:94 *);
  (u "AIR420", def_sp_AIR420) (* nmeatypes_set_prop.py:97 *);
  (u "AIR432", def_sp_AIR432) (* nmeatypes_set_prop.py:100 *);
  (u "AIR434", def_sp_AIR434) (* nmeatypes_set_prop.py:103 *);
  (u "AIR436", def_sp_AIR436) (* nmeatypes_set_prop.py:106 *);
  (u "AIR437", def_sp_AIR437) (* nmeatypes_set_prop.py:109 *);
  (u "AIR490", def_sp_AIR490) (* nmeatypes_set_prop.py:110 *);
  (u "AIR511", def_sp_AIR511) (* nmeatypes_set_prop.py:113 *);
  (u "AIR512", def_sp_AIR512) (* nmeatypes_set_prop.py:114 *);
  (u "AIR513", def_sp_AIR513) (* nmeatypes_set_prop.py:115 *);
  (u "AIR650", def_sp_AIR650) (* nmeatypes_set_prop.py:116 *);
  (u "AIR752", def_sp_AIR752) (* nmeatypes_set_prop.py:119 *);
  (u "AIR864", def_sp_AIR864) (* nmeatypes_set_prop.py:122 *);
  (u "AIR866", def_sp_AIR866) (* nmeatypes_set_prop.py:127 *);
  (u "AIR6010", def_sp_AIR6010) (* nmeatypes_set_prop.py:132 *);
  (u "GRMI", def_sp_GRMI) (* nmeatypes_set_prop.py:139 *);
  (u "GRMC", def_sp_GRMC) (* nmeatypes_set_prop.py:148 *);
  (u "GRMC1", def_sp_GRMC1) (* nmeatypes_set_prop.py:164 *);
  (u "GRMO", def_sp_GRMO) (* nmeatypes_set_prop.py:178 *);
  (u "GRMW", def_sp_GRMW) (* nmeatypes_set_prop.py:182 *);
  (u "INVCRES", def_sp_INVCRES) (* nmeatypes_set_prop.py:205 *);
  (u "INVCSTR", def_sp_INVCSTR) (* nmeatypes_set_prop.py:208 *);
  (u "INVMSLOPE", def_sp_INVMSLOPE) (* nmeatypes_set_prop.py:211 *);
  (u "LSC", def_sp_LSC) (* nmeatypes_set_prop.py:214 *);
  (u "QTMBKP", def_sp_QTMBKP) (* nmeatypes_set_prop.py:222 *);
  (u "QTMCFGAIC", def_gp_QTMCFGAIC) (* nmeatypes_set_prop.py:225 *);
  (u "QTMCFGANTDELTA", def_gp_QTMCFGANTDELTA) (* nmeatypes_set_prop.py:226 *);
  (u "QTMCFGANTINF", def_gp_QTMCFGANTINF) (* nmeatypes_set_prop.py:227 *);
  (u "QTMCFGBLD", def_gp_QTMCFGBLD) (* nmeatypes_set_prop.py:228 *);
  (u "QTMCFGCNST", def_gp_QTMCFGCNST) (* nmeatypes_set_prop.py:229 *);
  (u "QTMCFGDR", def_gp_QTMCFGDR) (* nmeatypes_set_prop.py:230 *);
  (u "QTMCFGDRHOT", def_gp_QTMCFGDRHOT) (* nmeatypes_set_prop.py:231 *);
  (u "QTMCFGDRRTD", def_gp_QTMCFGDRRTD) (* nmeatypes_set_prop.py:232 *);
  (u "QTMCFGEINSMSG", def_gp_QTMCFGEINSMSG) (* nmeatypes_set_prop.py:233 *);
  (u "QTMCFGELETHD", def_gp_QTMCFGELETHD) (* nmeatypes_set_prop.py:234 *);
  (u "QTMCFGFIXRATE", def_gp_QTMCFGFIXRATE) (* nmeatypes_set_prop.py:235 *);
  (u "QTMCFGGEOFENCE_DIS", def_gp_QTMCFGGEOFENCE_DIS) (* nmeatypes_set_prop.py:236 *);
  (u "QTMCFGGEOFENCE_POLY", def_gp_QTMCFGGEOFENCE_POLY) (* nmeatypes_set_prop.py:237 *);
  (u "QTMCFGGEOFENCE", def_gp_QTMCFGGEOFENCE) (* nmeatypes_set_prop.py:238 *);
  (u "QTMCFGGEOSEP", def_gp_QTMCFGGEOSEP) (* nmeatypes_set_prop.py:239 *);
  (u "QTMCFGIMUINT", def_gp_QTMCFGIMUINT) (* nmeatypes_set_prop.py:240 *);
  (u "QTMCFGIMUTC", def_gp_QTMCFGIMUTC) (* nmeatypes_set_prop.py:241 *);
  (u "QTMCFGLA", def_gp_QTMCFGLA) (* nmeatypes_set_prop.py:242 *);
  (u "QTMCFGLAM", def_gp_QTMCFGLAM) (* nmeatypes_set_prop.py:243 *);
  (u "QTMCFGMSGRATE", def_gp_QTMCFGMSGRATE) (* nmeatypes_set_prop.py:244 *);
  (u "QTMCFGMSGRATE_NOVER", def_gp_QTMCFGMSGRATE_NOVER) (* nmeatypes_set_prop.py:245 *);
  (u "QTMCFGMSGRATE_INTF", def_gp_QTMCFGMSGRATE_INTF) (* nmeatypes_set_prop.py:246 *);
  (u "QTMCFGMSGRATE_INTFNOVER", def_gp_QTMCFGMSGRATE_INTFNOVER) (* nmeatypes_set_prop.py:247 *);
  (u "QTMCFGNAVMODE", def_gp_QTMCFGNAVMODE) (* nmeatypes_set_prop.py:248 *);
  (u "QTMCFGNMEADP", def_gp_QTMCFGNMEADP) (* nmeatypes_set_prop.py:249 *);
  (u "QTMCFGNMEATID", def_gp_QTMCFGNMEATID) (* nmeatypes_set_prop.py:250 *);
  (u "QTMCFGODO", def_gp_QTMCFGODO) (* nmeatypes_set_prop.py:251 *);
  (u "QTMCFGPPS", def_gp_QTMCFGPPS) (* nmeatypes_set_prop.py:252 *);
  (u "QTMCFGSBAS", def_gp_QTMCFGSBAS) (* nmeatypes_set_prop.py:253 *);
  (u "QTMCFGSIGGRP", def_gp_QTMCFGSIGGRP) (* nmeatypes_set_prop.py:254 *);
  (u "QTMCFGPPS_DIS", def_sp_QTMCFGPPS_DIS) (* nmeatypes_set_prop.py:255 *);
  (u "QTMCFGPROT", def_gp_QTMCFGPROT) (* nmeatypes_set_prop.py:260 *);
  (u "QTMCFGRCVRMODE", def_gp_QTMCFGRCVRMODE) (* nmeatypes_set_prop.py:261 *);
  (u "QTMCFGRSID", def_gp_QTMCFGRSID) (* nmeatypes_set_prop.py:262 *);
  (u "QTMCFGRTCM", def_gp_QTMCFGRTCM) (* nmeatypes_set_prop.py:263 *);
  (u "QTMCFGRTK", def_gp_QTMCFGRTK) (* nmeatypes_set_prop.py:264 *);
  (u "QTMCFGRTKSRCTYPE", def_gp_QTMCFGRTKSRCTYPE) (* nmeatypes_set_prop.py:265 *);
  (u "QTMCFGSAT_LOW", def_gp_QTMCFGSAT_LOW) (* nmeatypes_set_prop.py:266 *);
  (u "QTMCFGSAT", def_gp_QTMCFGSAT) (* nmeatypes_set_prop.py:267 *);
  (u "QTMCFGSIGNAL", def_gp_QTMCFGSIGNAL) (* nmeatypes_set_prop.py:268 *);
  (u "QTMCFGSIGNAL2", def_gp_QTMCFGSIGNAL2) (* nmeatypes_set_prop.py:269 *);
  (u "QTMCFGSTATICHOLD", def_gp_QTMCFGSTATICHOLD) (* nmeatypes_set_prop.py:270 *);
  (u "QTMCFGSVIN", def_gp_QTMCFGSVIN) (* nmeatypes_set_prop.py:271 *);
  (u "QTMCFGWN", def_gp_QTMCFGWN) (* nmeatypes_set_prop.py:272 *);
  (u "QTMCFGUART", def_gp_QTMCFGUART) (* nmeatypes_set_prop.py:274 *);
  (u "QTMCFGVEHMOT", def_gp_QTMCFGVEHMOT) (* nmeatypes_set_prop.py:275 *);
  (u "QTMCFGUART_BAUD", def_sp_QTMCFGUART_BAUD) (* nmeatypes_set_prop.py:277 *);
  (u "QTMCFGUART_CURR", def_sp_QTMCFGUART_CURR) (* nmeatypes_set_prop.py:283 *);
  (u "QTMCFGUART_CURRBAUD", def_sp_QTMCFGUART_CURRBAUD) (* nmeatypes_set_prop.py:292 *);
  (u "QTMCOLD", def_sp_QTMCOLD) (* nmeatypes_set_prop.py:296 *);
  (u "QTMDEBUGOFF", def_sp_QTMDEBUGOFF) (* nmeatypes_set_prop.py:297 *);
  (u "QTMDEBUGON", def_sp_QTMDEBUGON) (* nmeatypes_set_prop.py:298 *);
  (u "QTMDRCLR", def_sp_QTMDRCLR) (* nmeatypes_set_prop.py:299 *);
  (u "QTMDRSAVE", def_sp_QTMDRSAVE) (* nmeatypes_set_prop.py:300 *);
  (u "QTMGNSSSTART", def_sp_QTMGNSSSTART) (* nmeatypes_set_prop.py:301 *);
  (u "QTMGNSSSTOP", def_sp_QTMGNSSSTOP) (* nmeatypes_set_prop.py:302 *);
  (u "QTMHOT", def_sp_QTMHOT) (* nmeatypes_set_prop.py:303 *);
  (u "QTMRESETODO", def_sp_QTMRESETODO) (* nmeatypes_set_prop.py:304 *);
  (u "QTMRESTOREPAR", def_sp_QTMRESTOREPAR) (* nmeatypes_set_prop.py:305 *);
  (u "QTMSAVEPAR", def_sp_QTMSAVEPAR) (* nmeatypes_set_prop.py:306 *);
  (u "QTMSRR", def_sp_QTMSRR) (* nmeatypes_set_prop.py:307 *);
  (u "QTMWARM", def_sp_QTMWARM) (* nmeatypes_set_prop.py:308 *);
  (u "STMCOLD", def_sp_STMCOLD) (* nmeatypes_set_prop.py:313 *);
  (u "STMWARM", def_sp_STMWARM) (* nmeatypes_set_prop.py:314 *);
  (u "STMEPHEM", def_sp_STMEPHEM) (* nmeatypes_set_prop.py:315 *);
  (u "STMHOT", def_sp_STMHOT) (* nmeatypes_set_prop.py:320 *);
  (u "STMSRR", def_sp_STMSRR) (* nmeatypes_set_prop.py:321 *);
  (u "STMSAVEPAR", def_sp_STMSAVEPAR) (* nmeatypes_set_prop.py:322 *);
  (u "STMRESTOREPAR", def_sp_STMRESTOREPAR) (* nmeatypes_set_prop.py:323 *);
  (u "STMSETPAR", def_sp_STMSETPAR) (* nmeatypes_set_prop.py:324 *);
  (u "STMIMUSELFTESTCMD", def_sp_STMIMUSELFTESTCMD) (* nmeatypes_set_prop.py:331 *);
  (u "STMINITGPS", def_sp_STMINITGPS) (* nmeatypes_set_prop.py:332 *);
  (u "STMINITTIME", def_sp_STMINITTIME) (* nmeatypes_set_prop.py:345 *);
  (u "STMDRMMFB", def_sp_STMDRMMFB) (* nmeatypes_set_prop.py:353 *);
  (u "UBX40", def_sp_UBX40) (* nmeatypes_set_prop.py:371 *);
  (u "UBX41", def_sp_UBX41) (* nmeatypes_set_prop.py:381 *)
].

(* nmeatypes_poll.py:24 *)
Definition def_p_GAQ : pdict :=
    [(u "msgId", ASingle (u "ST"))].

(* nmeatypes_poll.py:27 *)
Definition def_p_GBQ : pdict :=
    [(u "msgId", ASingle (u "ST"))].

(* nmeatypes_poll.py:30 *)
Definition def_p_GLQ : pdict :=
    [(u "msgId", ASingle (u "ST"))].

(* nmeatypes_poll.py:33 *)
Definition def_p_GNQ : pdict :=
    [(u "msgId", ASingle (u "ST"))].

(* nmeatypes_poll.py:36 *)
Definition def_p_GPQ : pdict :=
    [(u "msgId", ASingle (u "ST"))].

(* nmeatypes_poll.py:39 *)
Definition def_p_GQQ : pdict :=
    [(u "msgId", ASingle (u "ST"))].

(* nmeatypes_poll.py:46 *)
Definition def_p_UBX00 : pdict :=
    [(u "msgId", ASingle (u "ST"))].

(* nmeatypes_poll.py:49 *)
Definition def_p_UBX03 : pdict :=
    [(u "msgId", ASingle (u "ST"))].

(* nmeatypes_poll.py:52 *)
Definition def_p_UBX04 : pdict :=
    [(u "msgId", ASingle (u "ST"))].

(* nmeatypes_poll.py:55 *)
Definition def_p_UBX05 : pdict :=
    [(u "msgId", ASingle (u "ST"))].

(* nmeatypes_poll.py:58 *)
Definition def_p_UBX06 : pdict :=
    [(u "msgId", ASingle (u "ST"))].

(* nmeatypes_poll.py:62 *)
Definition def_p_GRMB : pdict :=
    [].

(* nmeatypes_poll.py:63 *)
Definition def_p_GRMC : pdict :=
    [].

(* nmeatypes_poll.py:64 *)
Definition def_p_GRMC1 : pdict :=
    [].

(* nmeatypes_poll.py:65 *)
Definition def_p_GRME : pdict :=
    [].

(* nmeatypes_poll.py:66 *)
Definition def_p_GRMF : pdict :=
    [].

(* nmeatypes_poll.py:67 *)
Definition def_p_GRMH : pdict :=
    [].

(* nmeatypes_poll.py:68 *)
Definition def_p_GRMI : pdict :=
    [].

(* nmeatypes_poll.py:69 *)
Definition def_p_GRMM : pdict :=
    [].

(* nmeatypes_poll.py:70 *)
Definition def_p_GRMO : pdict :=
    [].

(* nmeatypes_poll.py:71 *)
Definition def_p_GRMT : pdict :=
    [].

(* nmeatypes_poll.py:72 *)
Definition def_p_GRMV : pdict :=
    [].

(* nmeatypes_poll.py:73 *)
Definition def_p_GRMW : pdict :=
    [].

(* nmeatypes_poll.py:74 *)
Definition def_p_GRMZ : pdict :=
    [].

(* nmeatypes_poll.py:76 *)
Definition def_p_ASHRALR : pdict :=
    [(u "msgId", ASingle (u "ST"))].

(* nmeatypes_poll.py:79 *)
Definition def_p_ASHRARA : pdict :=
    [(u "msgId", ASingle (u "ST"))].

(* nmeatypes_poll.py:82 *)
Definition def_p_ASHRARR : pdict :=
    [(u "msgId", ASingle (u "ST"))].

(* nmeatypes_poll.py:85 *)
Definition def_p_ASHRATT : pdict :=
    [(u "msgId", ASingle (u "ST"))].

(* nmeatypes_poll.py:88 *)
Definition def_p_ASHRBTS : pdict :=
    [(u "msgId", ASingle (u "ST"))].

(* nmeatypes_poll.py:91 *)
Definition def_p_ASHRCAP : pdict :=
    [(u "msgId", ASingle (u "ST"))].

(* nmeatypes_poll.py:94 *)
Definition def_p_ASHRCPA : pdict :=
    [(u "msgId", ASingle (u "ST"))].

(* nmeatypes_poll.py:97 *)
Definition def_p_ASHRCPO : pdict :=
    [(u "msgId", ASingle (u "ST"))].

(* nmeatypes_poll.py:100 *)
Definition def_p_ASHRDDM : pdict :=
    [(u "msgId", ASingle (u "ST"))].

(* nmeatypes_poll.py:103 *)
Definition def_p_ASHRDDS : pdict :=
    [(u "msgId", ASingle (u "ST"))].

(* nmeatypes_poll.py:106 *)
Definition def_p_ASHRHPR : pdict :=
    [(u "msgId", ASingle (u "ST"))].

(* nmeatypes_poll.py:109 *)
Definition def_p_ASHRHR : pdict :=
    [(u "msgId", ASingle (u "ST"))].

(* nmeatypes_poll.py:112 *)
Definition def_p_ASHRLTN : pdict :=
    [(u "msgId", ASingle (u "ST"))].

(* nmeatypes_poll.py:115 *)
Definition def_p_ASHRMDM : pdict :=
    [(u "msgId", ASingle (u "ST"))].

(* nmeatypes_poll.py:118 *)
Definition def_p_ASHRPOS : pdict :=
    [(u "msgId", ASingle (u "ST"))].

(* nmeatypes_poll.py:121 *)
Definition def_p_ASHRPBN : pdict :=
    [(u "msgId", ASingle (u "ST"))].

(* nmeatypes_poll.py:124 *)
Definition def_p_ASHRPTT : pdict :=
    [(u "msgId", ASingle (u "ST"))].

(* nmeatypes_poll.py:127 *)
Definition def_p_ASHRPWR : pdict :=
    [(u "msgId", ASingle (u "ST"))].

(* nmeatypes_poll.py:130 *)
Definition def_p_ASHRRCS : pdict :=
    [(u "msgId", ASingle (u "ST"))].

(* nmeatypes_poll.py:133 *)
Definition def_p_ASHRSBD : pdict :=
    [(u "msgId", ASingle (u "ST"))].

(* nmeatypes_poll.py:136 *)
Definition def_p_ASHRSGA : pdict :=
    [(u "msgId", ASingle (u "ST"))].

(* nmeatypes_poll.py:139 *)
Definition def_p_ASHRSGL : pdict :=
    [(u "msgId", ASingle (u "ST"))].

(* nmeatypes_poll.py:142 *)
Definition def_p_ASHRSGO : pdict :=
    [(u "msgId", ASingle (u "ST"))].

(* nmeatypes_poll.py:145 *)
Definition def_p_ASHRSGP : pdict :=
    [(u "msgId", ASingle (u "ST"))].

(* nmeatypes_poll.py:148 *)
Definition def_p_ASHRSIR : pdict :=
    [(u "msgId", ASingle (u "ST"))].

(* nmeatypes_poll.py:151 *)
Definition def_p_ASHRSLB : pdict :=
    [(u "msgId", ASingle (u "ST"))].

(* nmeatypes_poll.py:154 *)
Definition def_p_ASHRSQZ : pdict :=
    [(u "msgId", ASingle (u "ST"))].

(* nmeatypes_poll.py:157 *)
Definition def_p_ASHRSSB : pdict :=
    [(u "msgId", ASingle (u "ST"))].

(* nmeatypes_poll.py:160 *)
Definition def_p_ASHRTEM : pdict :=
    [(u "msgId", ASingle (u "ST"))].

(* nmeatypes_poll.py:163 *)
Definition def_p_ASHRTHS : pdict :=
    [(u "msgId", ASingle (u "ST"))].

(* nmeatypes_poll.py:166 *)
Definition def_p_ASHRTTT : pdict :=
    [(u "msgId", ASingle (u "ST"))].

(* nmeatypes_poll.py:169 *)
Definition def_p_ASHRVCR : pdict :=
    [(u "msgId", ASingle (u "ST"))].

(* nmeatypes_poll.py:172 *)
Definition def_p_ASHRVCT : pdict :=
    [(u "msgId", ASingle (u "ST"))].

(* nmeatypes_poll.py:175 *)
Definition def_p_ASHRVEL : pdict :=
    [(u "msgId", ASingle (u "ST"))].

(* nmeatypes_poll.py:178 *)
Definition def_p_FUGDP : pdict :=
    [].

(* nmeatypes_poll.py:179 *)
Definition def_p_GPPADV110 : pdict :=
    [(u "msgId", ASingle (u "ST"))].

(* nmeatypes_poll.py:182 *)
Definition def_p_GPPADV120 : pdict :=
    [(u "msgId", ASingle (u "ST"))].

(* nmeatypes_poll.py:185 *)
Definition def_p_TNLAVR : pdict :=
    [(u "msgId", ASingle (u "ST"))].

(* nmeatypes_poll.py:188 *)
Definition def_p_TNLBPQ : pdict :=
    [(u "msgId", ASingle (u "ST"))].

(* nmeatypes_poll.py:191 *)
Definition def_p_TNLDG : pdict :=
    [(u "msgId", ASingle (u "ST"))].

(* nmeatypes_poll.py:194 *)
Definition def_p_TNLEVT : pdict :=
    [(u "msgId", ASingle (u "ST"))].

(* nmeatypes_poll.py:197 *)
Definition def_p_TNLGGK : pdict :=
    [(u "msgId", ASingle (u "ST"))].

(* nmeatypes_poll.py:200 *)
Definition def_p_TNLGGKx : pdict :=
    [(u "msgId", ASingle (u "ST"))].

(* nmeatypes_poll.py:203 *)
Definition def_p_TNLPJK : pdict :=
    [(u "msgId", ASingle (u "ST"))].

(* nmeatypes_poll.py:206 *)
Definition def_p_TNLPJT : pdict :=
    [(u "msgId", ASingle (u "ST"))].

(* nmeatypes_poll.py:209 *)
Definition def_p_TNLREX : pdict :=
    [(u "msgId", ASingle (u "ST"))].

(* nmeatypes_poll.py:212 *)
Definition def_p_TNLVGK : pdict :=
    [(u "msgId", ASingle (u "ST"))].

(* nmeatypes_poll.py:215 *)
Definition def_p_TNLVHD : pdict :=
    [(u "msgId", ASingle (u "ST"))].

(* nmeatypes_poll.py:20 NMEA_PAYLOADS_POLL *)
Definition NMEA_PAYLOADS_POLL : list (pystr * pdict) := [
  (u "GAQ", def_p_GAQ) (* nmeatypes_poll.py:24 *);
  (u "GBQ", def_p_GBQ) (* nmeatypes_poll.py:27 *);
  (u "GLQ", def_p_GLQ) (* nmeatypes_poll.py:30 *);
  (u "GNQ", def_p_GNQ) (* nmeatypes_poll.py:33 *);
  (u "GPQ", def_p_GPQ) (* nmeatypes_poll.py:36 *);
  (u "GQQ", def_p_GQQ) (* nmeatypes_poll.py:39 *);
  (u "UBX00", def_p_UBX00) (* nmeatypes_poll.py:46 *);
  (u "UBX03", def_p_UBX03) (* nmeatypes_poll.py:49 *);
  (u "UBX04", def_p_UBX04) (* nmeatypes_poll.py:52 *);
  (u "UBX05", def_p_UBX05) (* nmeatypes_poll.py:55 *);
  (u "UBX06", def_p_UBX06) (* nmeatypes_poll.py:58 *);
  (u "GRMB", def_p_GRMB) (* nmeatypes_poll.py:62 *);
  (u "GRMC", def_p_GRMC) (* nmeatypes_poll.py:63 *);
  (u "GRMC1", def_p_GRMC1) (* nmeatypes_poll.py:64 *);
  (u "GRME", def_p_GRME) (* nmeatypes_poll.py:65 *);
  (u "GRMF", def_p_GRMF) (* nmeatypes_poll.py:66 *);
  (u "GRMH", def_p_GRMH) (* nmeatypes_poll.py:67 *);
  (u "GRMI", def_p_GRMI) (* nmeatypes_poll.py:68 *);
  (u "GRMM", def_p_GRMM) (* nmeatypes_poll.py:69 *);
  (u "GRMO", def_p_GRMO) (* nmeatypes_poll.py:70 *);
  (u "GRMT", def_p_GRMT) (* nmeatypes_poll.py:71 *);
  (u "GRMV", def_p_GRMV) (* nmeatypes_poll.py:72 *);
  (u "GRMW", def_p_GRMW) (* nmeatypes_poll.py:73 *);
  (u "GRMZ", def_p_GRMZ) (* nmeatypes_poll.py:74 *);
  (u "ASHRALR", def_p_ASHRALR) (* nmeatypes_poll.py:76 *);
  (u "ASHRARA", def_p_ASHRARA) (* nmeatypes_poll.py:79 *);
  (u "ASHRARR", def_p_ASHRARR) (* nmeatypes_poll.py:82 *);
  (u "ASHRATT", def_p_ASHRATT) (* nmeatypes_poll.py:85 *);
  (u "ASHRBTS", def_p_ASHRBTS) (* nmeatypes_poll.py:88 *);
  (u "ASHRCAP", def_p_ASHRCAP) (* nmeatypes_poll.py:91 *);
  (u "ASHRCPA", def_p_ASHRCPA) (* nmeatypes_poll.py:94 *);
  (u "ASHRCPO", def_p_ASHRCPO) (* nmeatypes_poll.py:97 *);
  (u "ASHRDDM", def_p_ASHRDDM) (* nmeatypes_poll.py:100 *);
  (u "ASHRDDS", def_p_ASHRDDS) (* nmeatypes_poll.py:103 *);
  (u "ASHRHPR", def_p_ASHRHPR) (* nmeatypes_poll.py:106 *);
  (u "ASHRHR", def_p_ASHRHR) (* nmeatypes_poll.py:109 *);
  (u "ASHRLTN", def_p_ASHRLTN) (* nmeatypes_poll.py:112 *);
  (u "ASHRMDM", def_p_ASHRMDM) (* nmeatypes_poll.py:115 *);
  (u "ASHRPOS", def_p_ASHRPOS) (* nmeatypes_poll.py:118 *);
  (u "ASHRPBN", def_p_ASHRPBN) (* nmeatypes_poll.py:121 *);
  (u "ASHRPTT", def_p_ASHRPTT) (* nmeatypes_poll.py:124 *);
  (u "ASHRPWR", def_p_ASHRPWR) (* nmeatypes_poll.py:127 *);
  (u "ASHRRCS", def_p_ASHRRCS) (* nmeatypes_poll.py:130 *);
  (u "ASHRSBD", def_p_ASHRSBD) (* nmeatypes_poll.py:133 *);
  (u "ASHRSGA", def_p_ASHRSGA) (* nmeatypes_poll.py:136 *);
  (u "ASHRSGL", def_p_ASHRSGL) (* nmeatypes_poll.py:139 *);
  (u "ASHRSGO", def_p_ASHRSGO) (* nmeatypes_poll.py:142 *);
  (u "ASHRSGP", def_p_ASHRSGP) (* nmeatypes_poll.py:145 *);
  (u "ASHRSIR", def_p_ASHRSIR) (* nmeatypes_poll.py:148 *);
  (u "ASHRSLB", def_p_ASHRSLB) (* nmeatypes_poll.py:151 *);
  (u "ASHRSQZ", def_p_ASHRSQZ) (* nmeatypes_poll.py:154 *);
  (u "ASHRSSB", def_p_ASHRSSB) (* nmeatypes_poll.py:157 *);
  (u "ASHRTEM", def_p_ASHRTEM) (* nmeatypes_poll.py:160 *);
  (u "ASHRTHS", def_p_ASHRTHS) (* nmeatypes_poll.py:163 *);
  (u "ASHRTTT", def_p_ASHRTTT) (* nmeatypes_poll.py:166 *);
  (u "ASHRVCR", def_p_ASHRVCR) (* nmeatypes_poll.py:169 *);
  (u "ASHRVCT", def_p_ASHRVCT) (* nmeatypes_poll.py:172 *);
  (u "ASHRVEL", def_p_ASHRVEL) (* nmeatypes_poll.py:175 *);
  (u "FUGDP", def_p_FUGDP) (* nmeatypes_poll.py:178 *);
  (u "GPPADV110", def_p_GPPADV110) (* nmeatypes_poll.py:179 *);
  (u "GPPADV120", def_p_GPPADV120) (* nmeatypes_poll.py:182 *);
  (u "TNLAVR", def_p_TNLAVR) (* nmeatypes_poll.py:185 *);
  (u "TNLBPQ", def_p_TNLBPQ) (* nmeatypes_poll.py:188 *);
  (u "TNLDG", def_p_TNLDG) (* nmeatypes_poll.py:191 *);
  (u "TNLEVT", def_p_TNLEVT) (* nmeatypes_poll.py:194 *);
  (u "TNLGGK", def_p_TNLGGK) (* nmeatypes_poll.py:197 *);
  (u "TNLGGKx", def_p_TNLGGKx) (* nmeatypes_poll.py:200 *);
  (u "TNLPJK", def_p_TNLPJK) (* nmeatypes_poll.py:203 *);
  (u "TNLPJT", def_p_TNLPJT) (* nmeatypes_poll.py:206 *);
  (u "TNLREX", def_p_TNLREX) (* nmeatypes_poll.py:209 *);
  (u "TNLVGK", def_p_TNLVGK) (* nmeatypes_poll.py:212 *);
  (u "TNLVHD", def_p_TNLVHD) (* nmeatypes_poll.py:215 *)
].

(* nmeatypes_poll_prop.py:25 *)
Definition def_pp_AIR051 : pdict :=
    [].

(* nmeatypes_poll_prop.py:26 *)
Definition def_pp_AIR059 : pdict :=
    [].

(* nmeatypes_poll_prop.py:27 *)
Definition def_pp_AIR063 : pdict :=
    [(u "type", ASingle (u "IN"))].

(* nmeatypes_poll_prop.py:28 *)
Definition def_pp_AIR067 : pdict :=
    [].

(* nmeatypes_poll_prop.py:29 *)
Definition def_pp_AIR071 : pdict :=
    [].

(* nmeatypes_poll_prop.py:30 *)
Definition def_pp_AIR073 : pdict :=
    [].

(* nmeatypes_poll_prop.py:31 *)
Definition def_pp_AIR075 : pdict :=
    [].

(* nmeatypes_poll_prop.py:32 *)
Definition def_pp_AIR081 : pdict :=
    [].

(* nmeatypes_poll_prop.py:33 *)
Definition def_pp_AIR087 : pdict :=
    [].

(* nmeatypes_poll_prop.py:34 *)
Definition def_pp_AIR101 : pdict :=
    [].

(* nmeatypes_poll_prop.py:35 *)
Definition def_pp_AIR105 : pdict :=
    [].

(* nmeatypes_poll_prop.py:36 *)
Definition def_pp_AIR401 : pdict :=
    [].

(* nmeatypes_poll_prop.py:37 *)
Definition def_pp_AIR411 : pdict :=
    [].

(* nmeatypes_poll_prop.py:38 *)
Definition def_pp_AIR421 : pdict :=
    [].

(* nmeatypes_poll_prop.py:39 *)
Definition def_pp_AIR433 : pdict :=
    [].

(* nmeatypes_poll_prop.py:40 *)
Definition def_pp_AIR435 : pdict :=
    [].

(* nmeatypes_poll_prop.py:41 *)
Definition def_pp_AIR491 : pdict :=
    [].

(* nmeatypes_poll_prop.py:42 *)
Definition def_pp_AIR865 : pdict :=
    [(u "portType", ASingle (u "IN"));
     (u "portIndex", ASingle (u "IN"))].

(* nmeatypes_poll_prop.py:46 *)
Definition def_pp_AIR867 : pdict :=
    [(u "portType", ASingle (u "IN"));
     (u "portIndex", ASingle (u "IN"))].

(* nmeatypes_poll_prop.py:50 *)
Definition def_pp_AIR6011 : pdict :=
    [(u "type", ASingle (u "IN"))].

(* nmeatypes_poll_prop.py:59 *)
Definition def_pp_QTMCFGAIC : pdict :=
    [(u "status", ASingle (u "QS"))].

(* nmeatypes_poll_prop.py:60 *)
Definition def_pp_QTMCFGANTDELTA : pdict :=
    [(u "status", ASingle (u "QS"))].

(* nmeatypes_poll_prop.py:61 *)
Definition def_pp_QTMCFGANTINF : pdict :=
    [(u "status", ASingle (u "QS"))].

(* nmeatypes_poll_prop.py:62 *)
Definition def_pp_QTMCFGBLD : pdict :=
    [(u "status", ASingle (u "QS"))].

(* nmeatypes_poll_prop.py:63 *)
Definition def_pp_QTMCFGCNST : pdict :=
    [(u "status", ASingle (u "QS"))].

(* nmeatypes_poll_prop.py:64 *)
Definition def_pp_QTMCFGDR : pdict :=
    [(u "status", ASingle (u "QS"))].

(* nmeatypes_poll_prop.py:65 *)
Definition def_pp_QTMCFGELETHD : pdict :=
    [(u "status", ASingle (u "QS"))].

(* nmeatypes_poll_prop.py:66 *)
Definition def_pp_QTMCFGFIXRATE : pdict :=
    [(u "status", ASingle (u "QS"))].

(* nmeatypes_poll_prop.py:67 *)
Definition def_pp_QTMCFGGEOFENCE : pdict :=
    [(u "status", ASingle (u "QS"));
     (u "geofenceindex", ASingle (u "IN"))].

(* nmeatypes_poll_prop.py:68 *)
Definition def_pp_QTMCFGGEOSEP : pdict :=
    [(u "status", ASingle (u "QS"))].

(* nmeatypes_poll_prop.py:69 *)
Definition def_pp_QTMCFGIMUINT : pdict :=
    [(u "status", ASingle (u "QS"))].

(* nmeatypes_poll_prop.py:70 *)
Definition def_pp_QTMCFGLA : pdict :=
    [(u "status", ASingle (u "QS"))].

(* nmeatypes_poll_prop.py:71 *)
Definition def_pp_QTMCFGLAM : pdict :=
    [(u "status", ASingle (u "QS"))].

(* nmeatypes_poll_prop.py:72 *)
Definition def_pp_QTMCFGMSGRATE : pdict :=
    [(u "status", ASingle (u "QS"));
     (u "msgname", ASingle (u "ST"));
     (u "msgver", ASingle (u "IN"))].

(* nmeatypes_poll_prop.py:73 *)
Definition def_pp_QTMCFGMSGRATE_NOVER : pdict :=
    [(u "status", ASingle (u "QS"));
     (u "msgname", ASingle (u "ST"))].

(* nmeatypes_poll_prop.py:74 *)
Definition def_pp_QTMCFGMSGRATE_INTF : pdict :=
    [(u "status", ASingle (u "QS"));
     (u "porttype", ASingle (u "IN"));
     (u "portid", ASingle (u "IN"));
     (u "msgname", ASingle (u "ST"));
     (u "msgver", ASingle (u "IN"))].

(* nmeatypes_poll_prop.py:81 *)
Definition def_pp_QTMCFGMSGRATE_INTFNOVER : pdict :=
    [(u "status", ASingle (u "QS"));
     (u "porttype", ASingle (u "IN"));
     (u "portid", ASingle (u "IN"));
     (u "msgname", ASingle (u "ST"))].

(* nmeatypes_poll_prop.py:87 *)
Definition def_pp_QTMCFGNAVMODE : pdict :=
    [(u "status", ASingle (u "QS"))].

(* nmeatypes_poll_prop.py:88 *)
Definition def_pp_QTMCFGNMEADP : pdict :=
    [(u "status", ASingle (u "QS"))].

(* nmeatypes_poll_prop.py:89 *)
Definition def_pp_QTMCFGNMEATID : pdict :=
    [(u "status", ASingle (u "QS"))].

(* nmeatypes_poll_prop.py:90 *)
Definition def_pp_QTMCFGODO : pdict :=
    [(u "status", ASingle (u "QS"))].

(* nmeatypes_poll_prop.py:91 *)
Definition def_pp_QTMCFGPPS : pdict :=
    [(u "status", ASingle (u "QS"));
     (u "ppsindex", ASingle (u "IN"))].

(* nmeatypes_poll_prop.py:92 *)
Definition def_pp_QTMCFGPROT : pdict :=
    [(u "status", ASingle (u "QS"));
     (u "porttype", ASingle (u "IN"));
     (u "portid", ASingle (u "IN"))].

(* nmeatypes_poll_prop.py:93 *)
Definition def_pp_QTMCFGRCVRMODE : pdict :=
    [(u "status", ASingle (u "QS"))].

(* nmeatypes_poll_prop.py:94 *)
Definition def_pp_QTMCFGRSID : pdict :=
    [(u "status", ASingle (u "QS"))].

(* nmeatypes_poll_prop.py:95 *)
Definition def_pp_QTMCFGRTCM : pdict :=
    [(u "status", ASingle (u "QS"))].

(* nmeatypes_poll_prop.py:96 *)
Definition def_pp_QTMCFGRTK : pdict :=
    [(u "status", ASingle (u "QS"))].

(* nmeatypes_poll_prop.py:97 *)
Definition def_pp_QTMCFGRTKSRCTYPE : pdict :=
    [(u "status", ASingle (u "QS"))].

(* nmeatypes_poll_prop.py:98 *)
Definition def_pp_QTMCFGSAT : pdict :=
    [(u "status", ASingle (u "QS"));
     (u "systemid", ASingle (u "IN"));
     (u "signalid", ASingle (u "ST"))].

(* nmeatypes_poll_prop.py:99 *)
Definition def_pp_QTMCFGSBAS : pdict :=
    [(u "status", ASingle (u "QS"))].

(* nmeatypes_poll_prop.py:100 *)
Definition def_pp_QTMCFGSIGGRP : pdict :=
    [(u "status", ASingle (u "QS"))].

(* nmeatypes_poll_prop.py:101 *)
Definition def_pp_QTMCFGSIGNAL : pdict :=
    [(u "status", ASingle (u "QS"))].

(* nmeatypes_poll_prop.py:102 *)
Definition def_pp_QTMCFGSIGNAL2 : pdict :=
    [(u "status", ASingle (u "QS"))].

(* nmeatypes_poll_prop.py:103 *)
Definition def_pp_QTMCFGSTATICHOLD : pdict :=
    [(u "status", ASingle (u "QS"))].

(* nmeatypes_poll_prop.py:104 *)
Definition def_pp_QTMCFGSVIN : pdict :=
    [(u "status", ASingle (u "QS"))].

(* nmeatypes_poll_prop.py:105 *)
Definition def_pp_QTMCFGUART_CURR : pdict :=
    [(u "status", ASingle (u "QS"))].

(* nmeatypes_poll_prop.py:106 *)
Definition def_pp_QTMCFGUART : pdict :=
    [(u "status", ASingle (u "QS"));
     (u "portid", ASingle (u "IN"))].

(* nmeatypes_poll_prop.py:107 *)
Definition def_pp_QTMCFGVEHMOT : pdict :=
    [(u "status", ASingle (u "QS"))].

(* nmeatypes_poll_prop.py:108 *)
Definition def_pp_QTMCFGWN : pdict :=
    [(u "status", ASingle (u "QS"))].

(* nmeatypes_poll_prop.py:109 *)
Definition def_pp_QTMGETUTC : pdict :=
    [].

(* nmeatypes_poll_prop.py:110 *)
Definition def_pp_QTMQVER : pdict :=
    [(u "msgver", ASingle (u "IN"))].

(* nmeatypes_poll_prop.py:111 *)
Definition def_pp_QTMSN : pdict :=
    [].

(* nmeatypes_poll_prop.py:112 *)
Definition def_pp_QTMUNIQID : pdict :=
    [].

(* nmeatypes_poll_prop.py:113 *)
Definition def_pp_QTMVEHATT : pdict :=
    [].

(* nmeatypes_poll_prop.py:114 *)
Definition def_pp_QTMVERNO : pdict :=
    [].

(* nmeatypes_poll_prop.py:20 NMEA_PAYLOADS_POLL_PROP *)
Definition NMEA_PAYLOADS_POLL_PROP : list (pystr * pdict) := [
  (u "AIR051", def_pp_AIR051) (* nmeatypes_poll_prop.py:25 *);
  (u "AIR059", def_pp_AIR059) (* nmeatypes_poll_prop.py:26 *);
  (u "AIR063", def_pp_AIR063) (* nmeatypes_poll_prop.py:27 *);
  (u "AIR067", def_pp_AIR067) (* nmeatypes_poll_prop.py:28 *);
  (u "AIR071", def_pp_AIR071) (* nmeatypes_poll_prop.py:29 *);
  (u "AIR073", def_pp_AIR073) (* nmeatypes_poll_prop.py:30 *);
  (u "AIR075", def_pp_AIR075) (* nmeatypes_poll_prop.py:31 *);
  (u "AIR081", def_pp_AIR081) (* nmeatypes_poll_prop.py:32 *);
  (u "AIR087", def_pp_AIR087) (* nmeatypes_poll_prop.py:33 *);
  (u "AIR101", def_pp_AIR101) (* nmeatypes_poll_prop.py:34 *);
  (u "AIR105", def_pp_AIR105) (* nmeatypes_poll_prop.py:35 *);
  (u "AIR401", def_pp_AIR401) (* nmeatypes_poll_prop.py:36 *);
  (u "AIR411", def_pp_AIR411) (* nmeatypes_poll_prop.py:37 *);
  (u "AIR421", def_pp_AIR421) (* nmeatypes_poll_prop.py:38 *);
  (u "AIR433", def_pp_AIR433) (* nmeatypes_poll_prop.py:39 *);
  (u "AIR435", def_pp_AIR435) (* nmeatypes_poll_prop.py:40 *);
  (u "AIR491", def_pp_AIR491) (* nmeatypes_poll_prop.py:41 *);
  (u "AIR865", def_pp_AIR865) (* nmeatypes_poll_prop.py:42 *);
  (u "AIR867", def_pp_AIR867) (* nmeatypes_poll_prop.py:46 *);
  (u "AIR6011", def_pp_AIR6011) (* nmeatypes_poll_prop.py:50 *);
  (u "QTMCFGAIC", def_pp_QTMCFGAIC) (* nmeatypes_poll_prop.py:59 *);
  (u "QTMCFGANTDELTA", def_pp_QTMCFGANTDELTA) (* nmeatypes_poll_prop.py:60 *);
  (u "QTMCFGANTINF", def_pp_QTMCFGANTINF) (* nmeatypes_poll_prop.py:61 *);
  (u "QTMCFGBLD", def_pp_QTMCFGBLD) (* nmeatypes_poll_prop.py:62 *);
  (u "QTMCFGCNST", def_pp_QTMCFGCNST) (* nmeatypes_poll_prop.py:63 *);
  (u "QTMCFGDR", def_pp_QTMCFGDR) (* nmeatypes_poll_prop.py:64 *);
  (u "QTMCFGELETHD", def_pp_QTMCFGELETHD) (* nmeatypes_poll_prop.py:65 *);
  (u "QTMCFGFIXRATE", def_pp_QTMCFGFIXRATE) (* nmeatypes_poll_prop.py:66 *);
  (u "QTMCFGGEOFENCE", def_pp_QTMCFGGEOFENCE) (* nmeatypes_poll_prop.py:67 *);
  (u "QTMCFGGEOSEP", def_pp_QTMCFGGEOSEP) (* nmeatypes_poll_prop.py:68 *);
  (u "QTMCFGIMUINT", def_pp_QTMCFGIMUINT) (* nmeatypes_poll_prop.py:69 *);
  (u "QTMCFGLA", def_pp_QTMCFGLA) (* nmeatypes_poll_prop.py:70 *);
  (u "QTMCFGLAM", def_pp_QTMCFGLAM) (* nmeatypes_poll_prop.py:71 *);
  (u "QTMCFGMSGRATE", def_pp_QTMCFGMSGRATE) (* nmeatypes_poll_prop.py:72 *);
  (u "QTMCFGMSGRATE_NOVER", def_pp_QTMCFGMSGRATE_NOVER) (* nmeatypes_poll_prop.py:73 *);
  (u "QTMCFGMSGRATE_INTF", def_pp_QTMCFGMSGRATE_INTF) (* nmeatypes_poll_prop.py:74 *);
  (u "QTMCFGMSGRATE_INTFNOVER", def_pp_QTMCFGMSGRATE_INTFNOVER) (* nmeatypes_poll_prop.py:81 *);
  (u "QTMCFGNAVMODE", def_pp_QTMCFGNAVMODE) (* nmeatypes_poll_prop.py:87 *);
  (u "QTMCFGNMEADP", def_pp_QTMCFGNMEADP) (* nmeatypes_poll_prop.py:88 *);
  (u "QTMCFGNMEATID", def_pp_QTMCFGNMEATID) (* nmeatypes_poll_prop.py:89 *);
  (u "QTMCFGODO", def_pp_QTMCFGODO) (* nmeatypes_poll_prop.py:90 *);
  (u "QTMCFGPPS", def_pp_QTMCFGPPS) (* nmeatypes_poll_prop.py:91 *);
  (u "QTMCFGPROT", def_pp_QTMCFGPROT) (* nmeatypes_poll_prop.py:92 *);
  (u "QTMCFGRCVRMODE", def_pp_QTMCFGRCVRMODE) (* nmeatypes_poll_prop.py:93 *);
  (u "QTMCFGRSID", def_pp_QTMCFGRSID) (* nmeatypes_poll_prop.py:94 *);
  (u "QTMCFGRTCM", def_pp_QTMCFGRTCM) (* nmeatypes_poll_prop.py:95 *);
  (u "QTMCFGRTK", def_pp_QTMCFGRTK) (* nmeatypes_poll_prop.py:96 *);
  (u "QTMCFGRTKSRCTYPE", def_pp_QTMCFGRTKSRCTYPE) (* nmeatypes_poll_prop.py:97 *);
  (u "QTMCFGSAT", def_pp_QTMCFGSAT) (* nmeatypes_poll_prop.py:98 *);
  (u "QTMCFGSBAS", def_pp_QTMCFGSBAS) (* nmeatypes_poll_prop.py:99 *);
  (u "QTMCFGSIGGRP", def_pp_QTMCFGSIGGRP) (* nmeatypes_poll_prop.py:100 *);
  (u "QTMCFGSIGNAL", def_pp_QTMCFGSIGNAL) (* nmeatypes_poll_prop.py:101 *);
  (u "QTMCFGSIGNAL2", def_pp_QTMCFGSIGNAL2) (* nmeatypes_poll_prop.py:102 *);
  (u "QTMCFGSTATICHOLD", def_pp_QTMCFGSTATICHOLD) (* nmeatypes_poll_prop.py:103 *);
  (u "QTMCFGSVIN", def_pp_QTMCFGSVIN) (* nmeatypes_poll_prop.py:104 *);
  (u "QTMCFGUART_CURR", def_pp_QTMCFGUART_CURR) (* nmeatypes_poll_prop.py:105 *);
  (u "QTMCFGUART", def_pp_QTMCFGUART) (* nmeatypes_poll_prop.py:106 *);
  (u "QTMCFGVEHMOT", def_pp_QTMCFGVEHMOT) (* nmeatypes_poll_prop.py:107 *);
  (u "QTMCFGWN", def_pp_QTMCFGWN) (* nmeatypes_poll_prop.py:108 *);
  (u "QTMGETUTC", def_pp_QTMGETUTC) (* nmeatypes_poll_prop.py:109 *);
  (u "QTMQVER", def_pp_QTMQVER) (* nmeatypes_poll_prop.py:110 *);
  (u "QTMSN", def_pp_QTMSN) (* nmeatypes_poll_prop.py:111 *);
  (u "QTMUNIQID", def_pp_QTMUNIQID) (* nmeatypes_poll_prop.py:112 *);
  (u "QTMVEHATT", def_pp_QTMVEHATT) (* nmeatypes_poll_prop.py:113 *);
  (u "QTMVERNO", def_pp_QTMVERNO) (* nmeatypes_poll_prop.py:114 *)
].
