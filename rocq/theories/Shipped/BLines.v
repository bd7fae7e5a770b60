(** Generated by tools/shipped.py from the files of /repo/tables: tables B. *)
From Verif Require Import Shipped.Text.
Local Open Scope text_scope.

Definition b0 : text := cr " 000001 TABLE A:  ENTRY                                                  CCITTIA5                   0            0  24 CHARACTER                 0         3".
Definition b1 : text := cr " 000002 TABLE A:  DATA CATEGORY DESCRIPTION, LINE 1                      CCITTIA5                   0            0 256 CHARACTER                 0        32".
Definition b2 : text := cr " 000003 TABLE A:  DATA CATEGORY DESCRIPTION, LINE 2                      CCITTIA5                   0            0 256 CHARACTER                 0        32".
Definition b3 : text := " 000004 BUFR/CREX MASTER TABLE                                           CCITTIA5                   0            0  16 CHARACTER                 0         2".
Definition b4 : text := cr " 000005 BUFR/CREX EDITION NUMBER                                         CCITTIA5                   0            0  24 CHARACTER                 0         3".
Definition b5 : text := " 000006 BUFR MASTER TABLE VERSION NUMBER                                 CCITTIA5                   0            0  16 CHARACTER                 0         2 ".
Definition b6 : text := " 000007 CREX MASTER TABLE VERSION NUMBER                                 CCITTIA5                   0            0  16 CHARACTER                 0         2".
Definition b7 : text := " 000008 BUFR LOCAL TABLE VERSION NUMBER                                  CCITTIA5                   0            0  16 CHARACTER                 0         2".
Definition b8 : text := cr " 000010 F DESCRIPTOR TO BE ADDED OR DEFINED                              CCITTIA5                   0            0   8 CHARACTER                 0         1".
Definition b9 : text := cr " 000011 X DESCRIPTOR TO BE ADDED OR DEFINED                              CCITTIA5                   0            0  16 CHARACTER                 0         2".
Definition b10 : text := cr " 000012 Y DESCRIPTOR TO BE ADDED OR DEFINED                              CCITTIA5                   0            0  24 CHARACTER                 0         3".
Definition b11 : text := cr " 000013 ELEMENT NAME, LINE 1                                             CCITTIA5                   0            0 256 CHARACTER                 0        32".
Definition b12 : text := cr " 000014 ELEMENT NAME, LINE 2                                             CCITTIA5                   0            0 256 CHARACTER                 0        32".
Definition b13 : text := cr " 000015 UNITS NAME                                                       CCITTIA5                   0            0 192 CHARACTER                 0        24".
Definition b14 : text := cr " 000016 UNITS SCALE SIGN                                                 CCITTIA5                   0            0   8 CHARACTER                 0         1".
Definition b15 : text := cr " 000017 UNITS SCALE                                                      CCITTIA5                   0            0  24 CHARACTER                 0         3".
Definition b16 : text := cr " 000018 UNITS REFERENCE SIGN                                             CCITTIA5                   0            0   8 CHARACTER                 0         1".
Definition b17 : text := cr " 000019 UNITS REFERENCE VALUE                                            CCITTIA5                   0            0  80 CHARACTER                 0        10".
Definition b18 : text := cr " 000020 ELEMENT DATA WIDTH                                               CCITTIA5                   0            0  24 CHARACTER                 0         3".
Definition b19 : text := cr " 000030 DESCRIPTOR DEFINING SEQUENCE                                     CCITTIA5                   0            0  48 CHARACTER                 0         6".
Definition b20 : text := cr " 001001 WMO BLOCK NUMBER                                                 NUMERIC                    0            0   7 NUMERIC                   0         2".
Definition b21 : text := cr " 001002 WMO STATION NUMBER                                               NUMERIC                    0            0  10 NUMERIC                   0         3".
Definition b22 : text := cr " 001003 WMO REGION NUMBER/GEOGRAPHICAL AREA                              CODE TABLE 1003            0            0   3 CODE TABLE 1003           0         1".
Definition b23 : text := cr " 001004 WMO REGION SUB-AREA (SEE NOTE 9)                                 NUMERIC                    0            0   3 NUMERIC                   0         1".
Definition b24 : text := cr " 001005 BUOY/PLATFORM IDENTIFIER                                         NUMERIC                    0            0  17 NUMERIC                   0         5".
Definition b25 : text := cr " 001006 AIRCRAFT FLIGHT NUMBER                                           CCITTIA5                   0            0  64 CHARACTER                 0         8".
Definition b26 : text := cr " 001007 SATELLITE IDENTIFIER                                             CODE TABLE 1007            0            0  10 CODE TABLE 1007           0         4".
Definition b27 : text := cr " 001008 AIRCRAFT REGISTRATION NUMBER OR OTHER IDENTIFICATION             CCITTIA5                   0            0  64 CHARACTER                 0         8".
Definition b28 : text := cr " 001009 TYPE OF COMMERCIAL AIRCRAFT                                      CCITTIA5                   0            0  64 CHARACTER                 0         8".
Definition b29 : text := cr " 001010 STATIONARY BUOY PLATFORM IDENTIFIER; E.G. C-MAN BUOYS            CCITTIA5                   0            0  64 CHARACTER                 0         8".
Definition b30 : text := cr " 001011 SHIP OR MOBILE LAND STATION IDENTIFIER                           CCITTIA5                   0            0  72 CHARACTER                 0         9".
Definition b31 : text := cr " 001012 DIRECTION OF MOTION OF MOVING OBSERVING PLATFORM**               DEGREE TRUE                0            0   9 DEGREE TRUE               0         3".
Definition b32 : text := cr " 001013 SPEED OF MOTION OF MOVING OBSERVING PLATFORM*                    M/S                        0            0  10 M/S                       0         3".
Definition b33 : text := cr " 001014 PLATFORM DRIFT SPEED (HIGH PRECISION)                            M/S                        2            0  10 M/S                       2         4".
Definition b34 : text := cr " 001015 STATION OR SITE NAME                                             CCITTIA5                   0            0 160 CHARACTER                 0        20".
Definition b35 : text := cr " 001018 SHORT STATION OR SITE NAME                                       CCITTIA5                   0            0  40 CHARACTER                 0         5".
Definition b36 : text := cr " 001019 LONG STATION OR SITE NAME                                        CCITTIA5                   0            0 256 CHARACTER                 0        32".
Definition b37 : text := cr " 001020 WMO REGION SUB-AREA                                              NUMERIC                    0            0   4 NUMERIC                   0         2".
Definition b38 : text := cr " 001021 SYNOPTIC FEATURE IDENTIFIER                                      NUMERIC                    0            0  14 NUMERIC                   0         4".
Definition b39 : text := cr " 001022 NAME OF FEATURE (SEE NOTE 11)                                    CCITTIA5                   0            0 224 CHARACTER                 0        28".
Definition b40 : text := cr " 001023 OBSERVATION SEQUENCE NUMBER                                      NUMERIC                    0            0   9 NUMERIC                   0         3".
Definition b41 : text := cr " 001025 STORM IDENTIFIER                                                 CCITTIA5                   0            0  24 CHARACTER                 0         3".
Definition b42 : text := cr " 001026 WMO STORM NAME                                                   CCITTIA5                   0            0  64 CHARACTER                 0         8".
Definition b43 : text := cr " 001027 WMO LONG STORM NAME                                              CCITTIA5                   0            0  80 CHARACTER                 0        10".
Definition b44 : text := cr " 001031 IDENTIFICATION OF ORIGINATING/GENERATING CENTRE (SEE NOTE 10)    CODE TABLE 1031            0            0  16 CODE TABLE 1031           0         5".
Definition b45 : text := cr " 001032 GENERATING APPLICATION                                           CODE TABLE 1032            0            0   8 CODE TABLE 1032           0         3".
Definition b46 : text := cr " 001033 IDENTIFICATION OF ORIGINATING/GENERATING CENTRE                  CODE TABLE 1033            0            0   8 CODE TABLE 1033           0         3".
Definition b47 : text := cr " 001034 IDENTIFICATION OF ORIGINATING/GENERATING SUB-CENTRE              CODE TABLE 1034            0            0   8 CODE TABLE 1034           0         3".
Definition b48 : text := cr " 001035 ORIGINATING CENTRE                                               COMMON CODE TABLE C-11     0            0  16 COMMON CODE TABLE C-11    0         5".
Definition b49 : text := cr " 001036 AGENCY IN CHARGE OF OPERATING THE OBSERVING PLATFORM             CODE TABLE 1036            0            0  20 CODE TABLE 1036           0         7".
Definition b50 : text := cr " 001041 ABSOLUTE PLATFORM VELOCITY - FIRST COMPONENT (SEE NOTE 6)        M/S                        5  -1073741824  31 M/S                       5        10".
Definition b51 : text := cr " 001042 ABSOLUTE PLATFORM VELOCITY - SECOND COMPONENT (SEE NOTE 6)       M/S                        5  -1073741824  31 M/S                       5        10".
Definition b52 : text := cr " 001043 ABSOLUTE PLATFORM VELOCITY - THIRD COMPONENT (SEE NOTE 6)        M/S                        5  -1073741824  31 M/S                       5        10".
Definition b53 : text := cr " 001050 PLATFORM TRANSMITTER ID NUMBER                                   NUMERIC                    0            0  17 NUMERIC                   0         6".
Definition b54 : text := cr " 001051 PLATFORM TRANSMITTER ID NUMBER                                   CCITTIA5                   0            0  96 CHARACTER                 0        12".
Definition b55 : text := cr " 001060 AIRCRAFT REPORTING POINT (BEACON IDENTIFIER)                     CCITTIA5                   0            0  64 CHARACTER                 0         8".
Definition b56 : text := cr " 001062 SHORT ICAO LOCATION INDICATOR                                    CCITTIA5                   0            0  32 CHARACTER                 0         4".
Definition b57 : text := cr " 001063 ICAO LOCATION INDICATOR                                          CCITTIA5                   0            0  64 CHARACTER                 0         8".
Definition b58 : text := cr " 001064 RUNWAY DESIGNATOR                                                CCITTIA5                   0            0  32 CHARACTER                 0         4".
Definition b59 : text := cr " 001075 TIDE STATION IDENTIFICATION                                      CCITTIA5                   0            0  40 CHARACTER                 0         5".
Definition b60 : text := cr " 001080 SHIP LINE NUMBER ACCORDING TO SOOP                               CCITTIA5                   0            0  32 CHARACTER                 0         4".
Definition b61 : text := cr " 001081 RADIOSONDE SERIAL NUMBER                                         CCITTIA5                   0            0 160 CHARACTER                 0        20".
Definition b62 : text := cr " 001082 RADIOSONDE ASCENSION NUMBER (SEE NOTE 12)                        NUMERIC                    0            0  14 NUMERIC                   0         4".
Definition b63 : text := cr " 001083 RADIOSONDE RELEASE NUMBER (SEE NOTE 12)                          NUMERIC                    0            0   3 NUMERIC                   0         1".
Definition b64 : text := cr " 001085 OBSERVING PLATFORM MANUFACTURER'S MODEL                          CCITTIA5                   0            0 160 CHARACTER                 0        20".
Definition b65 : text := cr " 001086 OBSERVING PLATFORM MANUFACTURER'S SERIAL NUMBER                  CCITTIA5                   0            0 256 CHARACTER                 0        32".
Definition b66 : text := " 001087 WMO MARINE OBSERVING PLATFORM EXTENDED IDENTIFIER                NUMERIC                    0            0  23 NUMERIC                   0         7".
Definition b67 : text := cr " 001090 TECHNIQUE FOR MAKING UP INITIAL PERTURBATIONS                    CODE TABLE 1090            0            0   8 CODE TABLE 1090           0         3".
Definition b68 : text := cr " 001091 ENSEMBLE MEMBER NUMBER                                           NUMERIC                    0            0  10 NUMERIC                   0         4".
Definition b69 : text := cr " 001092 TYPE OF ENSEMBLE FORECAST                                        CODE TABLE 1092            0            0   8 CODE TABLE 1092           0         3".
Definition b70 : text := cr " 001093 BALLOON LOT NUMBER                                               CCITTIA5                   0            0  96 CHARACTER                 0        12".
Definition b71 : text := cr " 001094 WBAN NUMBER                                                      NUMERIC                    0            0  17 NUMERIC                   0         5".
Definition b72 : text := cr " 001095 OBSERVER IDENTIFICATION                                          CCITTIA5                   0            0  32 CHARACTER                 0         4".
Definition b73 : text := cr " 001096 STATION ACQUISITION                                              CCITTIA5                   0            0 160 CHARACTER                 0        20".
Definition b74 : text := " 001193 SIGMA_0 SIMULATION METHOD                                        CODE TABLE 1193            0            0   4  ".
Definition b75 : text := " 001194 CARRIER BALLOON/AIRCRAFT IDENTIFIER                              CCITTIA5                   0            0  72  ".
Definition b76 : text := " 001195 MOBIL LAND STATION IDENTIFIER                                    CCITTIA5                   0            0  72  ".
Definition b77 : text := " 001196 CONSTANT LEVEL BALLOON IDENTIFIER                                CCITTIA5                   0            0  72  ".
Definition b78 : text := " 001197 RTP - PLATFORM TYPE                                              CODE TABLE 1197            0            0  10  ".
Definition b79 : text := " 001198 ITP - DECK ID                                                    CODE TABLE 1198            0            0  10  ".
Definition b80 : text := " 001199 DUP - DUPLICATE STATUS                                           CODE TABLE 1199            0            0   4  ".
Definition b81 : text := " 001201 GENERATING APPLICATION                                           CODE TABLE 1201            0            0   8  ".
Definition b82 : text := " 001205 SATELLITE IDENTIFIER                                             CODE TABLE 1205            0            0  10  ".
Definition b83 : text := " 001208 VELOCITY OF PLATFORM, X                                          M/S                        5  -1073741824  31  ".
Definition b84 : text := " 001209 VELOCITY OF PLATFORM, Y                                          M/S                        5  -1073741824  31  ".
Definition b85 : text := " 001210 VELOCITY OF PLATFORM, Z                                          M/S                        5  -1073741824  31  ".
Definition b86 : text := cr " 002001 TYPE OF STATION                                                  CODE TABLE 2001            0            0   2 CODE TABLE 2001           0         1".
Definition b87 : text := cr " 002002 TYPE OF INSTRUMENTATION FOR WIND MEASUREMENT                     FLAG TABLE 2002            0            0   4 FLAG TABLE 2002           0         2".
Definition b88 : text := cr " 002003 TYPE OF MEASURING EQUIPMENT USED                                 CODE TABLE 2003            0            0   4 CODE TABLE 2003           0         2".
Definition b89 : text := cr " 002004 TYPE OF INSTRUMENTATION FOR EVAPORATION MEASUREMENT OR TYPE OF C CODE TABLE 2004            0            0   4 CODE TABLE 2004           0         2".
Definition b90 : text := cr " 002005 PRECISION OF TEMPERATURE OBSERVATION                             K                          2            0   7 K                         2         3".
Definition b91 : text := cr " 002011 RADIOSONDE TYPE                                                  CODE TABLE 2011            0            0   8 CODE TABLE 2011           0         3".
Definition b92 : text := cr " 002012 RADIOSONDE COMPUTATIONAL METHOD                                  CODE TABLE 2012            0            0   4 CODE TABLE 2012           0         2".
Definition b93 : text := cr " 002013 SOLAR AND INFRARED RADIATION CORRECTION                          CODE TABLE 2013            0            0   4 CODE TABLE 2013           0         2".
Definition b94 : text := cr " 002014 TRACKING TECHNIQUE/STATUS OF SYSTEM USED                         CODE TABLE 2014            0            0   7 CODE TABLE 2014           0         3".
Definition b95 : text := cr " 002015 RADIOSONDE COMPLETENESS                                          CODE TABLE 2015            0            0   4 CODE TABLE 2015           0         2".
Definition b96 : text := cr " 002016 RADIOSONDE CONFIGURATION                                         FLAG TABLE 2016            0            0   5 FLAG TABLE 2016           0         2".
Definition b97 : text := cr " 002019 SATELLITE INSTRUMENTS                                            CODE TABLE 2019            0            0  11 CODE TABLE 2019           0         4".
Definition b98 : text := cr " 002020 SATELLITE CLASSIFICATION                                         CODE TABLE 2020            0            0   9 CODE TABLE 2020           0         3".
Definition b99 : text := cr " 002021 SATELLITE INSTRUMENT DATA USED IN PROCESSING                     FLAG TABLE 2021            0            0   9 FLAG TABLE 2021           0         3".
Definition b100 : text := cr " 002022 SATELLITE DATA-PROCESSING TECHNIQUE USED                         FLAG TABLE 2022            0            0   8 FLAG TABLE 2022           0         3".
Definition b101 : text := cr " 002023 SATELLITE DERIVED WIND COMPUTATION METHOD                        CODE TABLE 2023            0            0   4 CODE TABLE 2023           0         2".
Definition b102 : text := cr " 002024 INTEGRATED MEAN HUMIDITY COMPUTATIONAL METHOD                    CODE TABLE 2024            0            0   4 CODE TABLE 2024           0         2".
Definition b103 : text := cr " 002025 SATELLITE CHANNEL(S) USED IN COMPUTATION                         FLAG TABLE 2025            0            0  25 FLAG TABLE 2025           0         9".
Definition b104 : text := cr " 002026 CROSS TRACK RESOLUTION                                           M                          2            0  12 M                         2         4".
Definition b105 : text := cr " 002027 ALONG TRACK RESOLUTION                                           M                          2            0  12 M                         2         4".
Definition b106 : text := cr " 002028 SEGMENT SIZE AT NADIR IN X DIRECTION                             M                          0            0  18 M                         0         6".
Definition b107 : text := cr " 002029 SEGMENT SIZE AT NADIR IN Y DIRECTION                             M                          0            0  18 M                         0         6".
Definition b108 : text := cr " 002030 METHOD OF CURRENT MEASUREMENT                                    CODE TABLE 2030            0            0   3 CODE TABLE 2030           0         1".
Definition b109 : text := cr " 002031 DURATION AND TIME OF CURRENT MEASUREMENT                         CODE TABLE 2031            0            0   5 CODE TABLE 2031           0         2".
Definition b110 : text := cr " 002032 INDICATOR FOR DIGITIZATION                                       CODE TABLE 2032            0            0   2 CODE TABLE 2032           0         1".
Definition b111 : text := cr " 002033 METHOD OF SALINITY/DEPTH MEASUREMENT                             CODE TABLE 2033            0            0   3 CODE TABLE 2033           0         1".
Definition b112 : text := cr " 002034 DROGUE TYPE                                                      CODE TABLE 2034            0            0   5 CODE TABLE 2034           0         2".
Definition b113 : text := cr " 002035 CABLE LENGTH                                                     M                          0            0   9 M                         0         3".
Definition b114 : text := cr " 002036 BUOY TYPE                                                        CODE TABLE 2036            0            0   2 CODE TABLE 2036           0         1".
Definition b115 : text := cr " 002037 METHOD OF TIDAL OBSERVATION                                      CODE TABLE 2037            0            0   3 CODE TABLE 2037           0         1".
Definition b116 : text := cr " 002038 METHOD OF WATER TEMPERATURE AND/OR SALINITY MEASUREMENT          CODE TABLE 2038            0            0   4 CODE TABLE 2038           0         2".
Definition b117 : text := cr " 002039 METHOD OF WET-BULB TEMPERATURE MEASUREMENT                       CODE TABLE 2039            0            0   3 CODE TABLE 2039           0         1".
Definition b118 : text := cr " 002040 METHOD OF REMOVING VELOCITY AND MOTION OF PLATFORM FROM CURRENT  CODE TABLE 2040            0            0   4 CODE TABLE 2040           0         2".
Definition b119 : text := cr " 002041 METHOD FOR ESTIMATING REPORTS RELATED TO SYNOPTIC FEATURES       CODE TABLE 2041            0            0   6 CODE TABLE 2041           0         2".
Definition b120 : text := " 002042 INDICATOR FOR SEA SURFACE CURRENT SPEED                          CODE TABLE 2042            0            0   2 CODE TABLE 2042           0         1".
Definition b121 : text := cr " 002044 INDICATOR FOR METHOD OF CALCULATING SPECTRAL WAVE DATA           CODE TABLE 2044            0            0   4 CODE TABLE 2044           0         2".
Definition b122 : text := cr " 002045 INDICATOR FOR TYPE OF PLATFORM                                   CODE TABLE 2045            0            0   4 CODE TABLE 2045           0         2".
Definition b123 : text := cr " 002046 WAVE MEASUREMENT INSTRUMENTATION                                 CODE TABLE 2046            0            0   4 CODE TABLE 2046           0         2".
Definition b124 : text := cr " 002048 SATELLITE SENSOR INDICATOR                                       CODE TABLE 2048            0            0   4 CODE TABLE 2048           0         2".
Definition b125 : text := cr " 002049 GEOSTATIONARY SATELLITE DATA-PROCESSING TECHNIQUE USED           FLAG TABLE 2049            0            0   8 FLAG TABLE 2049           0         3".
Definition b126 : text := cr " 002050 GEOSTATIONARY SOUNDER SATELLITE CHANNELS USED                    FLAG TABLE 2050            0            0  20 FLAG TABLE 2050           0         7".
Definition b127 : text := cr " 002051 INDICATOR TO SPECIFY OBSERVING METHOD FOR EXTREME TEMPERATURES   CODE TABLE 2051            0            0   4 CODE TABLE 2051           0         2".
Definition b128 : text := cr " 002052 GEOSTATIONARY IMAGER SATELLITE CHANNELS USED                     FLAG TABLE 2052            0            0   6 FLAG TABLE 2052           0         2".
Definition b129 : text := cr " 002053 GOES-I/M BRIGHTNESS TEMPERATURE CHARACTERISTICS                  CODE TABLE 2053            0            0   4 CODE TABLE 2053           0         2".
Definition b130 : text := cr " 002054 GOES-I/M SOUNDINGS PARAMETER CHARACTERISTICS                     CODE TABLE 2054            0            0   4 CODE TABLE 2054           0         2".
Definition b131 : text := cr " 002055 GEOSTATIONARY SOUNDINGS STATISTICAL PARAMETERS                   CODE TABLE 2055            0            0   4 CODE TABLE 2055           0         2".
Definition b132 : text := cr " 002056 GEOSTATIONARY SOUNDINGS ACCURACY STATISTICS                      CODE TABLE 2056            0            0   4 CODE TABLE 2056           0         2".
Definition b133 : text := cr " 002057 ORIGIN OF FIRST GUESS INFORMATION FOR GOES-I/M SOUNDINGS         CODE TABLE 2057            0            0   4 CODE TABLE 2057           0         2".
Definition b134 : text := cr " 002058 VALID TIMES OF FIRST GUESS INFORMATION FOR GOES-I/M SOUNDINGS    CODE TABLE 2058            0            0   4 CODE TABLE 2058           0         2".
Definition b135 : text := cr " 002059 ORIGIN OF ANALYSIS INFORMATION FOR GOES-I/M SOUNDINGS            CODE TABLE 2059            0            0   4 CODE TABLE 2059           0         2".
Definition b136 : text := cr " 002060 ORIGIN OF SURFACE INFORMATION FOR GOES-I/M SOUNDINGS             CODE TABLE 2060            0            0   4 CODE TABLE 2060           0         2".
Definition b137 : text := cr " 002061 AIRCRAFT NAVIGATIONAL SYSTEM                                     CODE TABLE 2061            0            0   3 CODE TABLE 2061           0         1".
Definition b138 : text := cr " 002062 TYPE OF AIRCRAFT DATA RELAY SYSTEM                               CODE TABLE 2062            0            0   4 CODE TABLE 2062           0         2".
Definition b139 : text := cr " 002063 AIRCRAFT ROLL ANGLE                                              DEGREE                     2       -18000  16 DEGREE                    2         5".
Definition b140 : text := cr " 002064 AIRCRAFT ROLL ANGLE QUALITY                                      CODE TABLE 2064            0            0   2 CODE TABLE 2064           0         1".
Definition b141 : text := cr " 002065 ACARS GROUND RECEIVING STATION                                   CCITTIA5                   0            0  40 CHARACTER                 0         5".
Definition b142 : text := cr " 002066 RADIOSONDE GROUND RECEIVING SYSTEM                               CODE TABLE 2066            0            0   6 CODE TABLE 2066           0         2".
Definition b143 : text := cr " 002067 RADIOSONDE OPERATING FREQUENCY                                   Hz                        -5            0  15 Hz                       -5         5".
Definition b144 : text := cr " 002070 ORIGINAL SPECIFICATION OF LATITUDE/LONGITUDE                     CODE TABLE 2070            0            0   4 CODE TABLE 2070           0         2".
Definition b145 : text := cr " 002080 BALLOON MANUFACTURER                                             CODE TABLE 2080            0            0   6 CODE TABLE 2080           0         2".
Definition b146 : text := cr " 002081 TYPE OF BALLOON                                                  CODE TABLE 2081            0            0   5 CODE TABLE 2081           0         2".
Definition b147 : text := cr " 002082 WEIGHT OF BALLOON                                                KG                         3            0  12 KG                        3         4".
Definition b148 : text := cr " 002083 TYPE OF BALLOON SHELTER                                          CODE TABLE 2083            0            0   4 CODE TABLE 2083           0         2".
Definition b149 : text := cr " 002084 TYPE OF GAS USED IN BALLOON                                      CODE TABLE 2084            0            0   4 CODE TABLE 2084           0         2".
Definition b150 : text := cr " 002085 AMOUNT OF GAS USED IN BALLOON                                    KG                         3            0  13 KG                        3         4".
Definition b151 : text := cr " 002086 BALLOON FLIGHT TRAIN LENGTH                                      M                          1            0  10 M                         1         4".
Definition b152 : text := cr " 002091 ENTRY SENSOR 4/20 MA                                             A                          4            0  10 A                         4         3".
Definition b153 : text := cr " 002095 TYPE OF PRESSURE SENSOR                                          CODE TABLE 2095            0            0   5 CODE TABLE 2095           0         2".
Definition b154 : text := cr " 002096 TYPE OF TEMPERATURE SENSOR                                       CODE TABLE 2096            0            0   5 CODE TABLE 2096           0         2".
Definition b155 : text := cr " 002097 TYPE OF HUMIDITY SENSOR                                          CODE TABLE 2097            0            0   5 CODE TABLE 2097           0         2".
Definition b156 : text := cr " 002100 RADAR CONSTANT                                                   dB                         1            0  12 dB                        1         4".
Definition b157 : text := cr " 002101 TYPE OF ANTENNA                                                  CODE TABLE 2101            0            0   4 CODE TABLE 2101           0         2".
Definition b158 : text := cr " 002102 ANTENNA HEIGHT ABOVE TOWER BASE                                  M                          0            0   8 M                         0         3".
Definition b159 : text := cr " 002103 RADOME                                                           FLAG TABLE 2103            0            0   2 FLAG TABLE 2103           0         1".
Definition b160 : text := cr " 002104 ANTENNA POLARISATION                                             CODE TABLE 2104            0            0   4 CODE TABLE 2104           0         2".
Definition b161 : text := cr " 002105 MAXIMUM ANTENNA GAIN                                             dB                         0            0   6 dB                        0         2".
Definition b162 : text := cr " 002106 3-DB BEAMWIDTH                                                   DEGREE                     1            0   6 DEGREE                    1         2".
Definition b163 : text := cr " 002107 SIDELOBE SUPPRESSION                                             dB                         0            0   6 dB                        0         2".
Definition b164 : text := cr " 002108 CROSSPOL DISCRIMINATION (ON AXIS)                                dB                         0            0   6 dB                        0         2".
Definition b165 : text := cr " 002109 ANTENNA SPEED (AZIMUTH)                                          DEGREE/S                   2            0  12 DEGREE/S                  2         4".
Definition b166 : text := cr " 002110 ANTENNA SPEED (ELEVATION)                                        DEGREE/S                   2            0  12 DEGREE/S                  2         4".
Definition b167 : text := cr " 002111 RADAR INCIDENCE ANGLE                                            DEGREE                     1            0  10 DEGREE                    1         4".
Definition b168 : text := cr " 002112 RADAR LOOK ANGLE                                                 DEGREE                     1            0  12 DEGREE                    1         4".
Definition b169 : text := cr " 002113 NUMBER OF AZIMUTH LOOKS                                          NUMERIC                    0            0   4 NUMERIC                   0         2".
Definition b170 : text := cr " 002114 ANTENNA EFFECTIVE SURFACE AREA                                   M**2                       0            0  15 M**2                      0         5".
Definition b171 : text := cr " 002115 TYPE OF SURFACE OBSERVING EQUIPMENT                              CODE TABLE 2115            0            0   5 CODE TABLE 2115           0         2".
Definition b172 : text := cr " 002116 PERCENTAGE OF 320 MHZ BAND PROCESSED                             %                          0            0   7 %                         0         3".
Definition b173 : text := cr " 002117 PERCENTAGE OF 80 MHZ BAND PROCESSED                              %                          0            0   7 %                         0         3".
Definition b174 : text := cr " 002118 PERCENTAGE OF 20 MHZ BAND PROCESSED                              %                          0            0   7 %                         0         3".
Definition b175 : text := cr " 002119 RA-2 INSTRUMENT OPERATIONS                                       CODE TABLE 2119            0            0   3 CODE TABLE 2119           0         1".
Definition b176 : text := cr " 002120 OCEAN WAVE FREQUENCY                                             Hz                         3            0  10 Hz                        3         4".
Definition b177 : text := cr " 002121 MEAN FREQUENCY                                                   Hz                        -8            0   7 Hz                       -8         3".
Definition b178 : text := cr " 002122 FREQUENCY AGILITY RANGE                                          Hz                        -6         -128   8 Hz                       -6         3".
Definition b179 : text := cr " 002123 PEAK POWER                                                       W                         -4            0   7 W                        -4         3".
Definition b180 : text := cr " 002124 AVERAGE POWER                                                    W                         -1            0   7 W                        -1         3".
Definition b181 : text := cr " 002125 PULSE REPETITION FREQUENCY                                       Hz                        -1            0   8 Hz                       -1         3".
Definition b182 : text := cr " 002126 PULSE WIDTH                                                      S                          7            0   6 S                         7         2".
Definition b183 : text := cr " 002127 RECEIVER INTERMEDIATE FREQUENCY                                  Hz                        -6            0   7 Hz                       -6         3".
Definition b184 : text := cr " 002128 INTERMEDIATE FREQUENCY BANDWIDTH                                 Hz                        -5            0   6 Hz                       -5         2".
Definition b185 : text := cr " 002129 MINIMUM DETECTABLE SIGNAL                                        dB                         0         -150   5 dB                        0         3".
Definition b186 : text := cr " 002130 DYNAMIC RANGE                                                    dB                         0            0   7 dB                        0         3".
Definition b187 : text := cr " 002131 SENSITIVITY TIME CONTROL (STC)                                   FLAG TABLE 2131            0            0   2 FLAG TABLE 2131           0         1".
Definition b188 : text := cr " 002132 AZIMUTH POINTING ACCURACY                                        DEGREE                     2            0   6 DEGREE                    2         2".
Definition b189 : text := cr " 002133 ELEVATION POINTING ACCURACY                                      DEGREE                     2            0   6 DEGREE                    2         2".
Definition b190 : text := cr " 002134 ANTENNA BEAM AZIMUTH                                             DEGREE                     2            0  16 DEGREE                    2         5".
Definition b191 : text := cr " 002135 ANTENNA ELEVATION                                                DEGREE                     2        -9000  15 DEGREE                    2         5".
Definition b192 : text := cr " 002136 RANGE PROCESSED BY RANGE ATTENUATION CORRECTION                  M                         -3            0  16 M                        -3         5".
Definition b193 : text := cr " 002140 SATELLITE RADAR BEAM AZIMUTH ANGLE                               DEGREE                     0            0   9 DEGREE                    0         3".
Definition b194 : text := cr " 002141 MEASUREMENT TYPE                                                 CCITTIA5                   0            0  24 CHARACTER                 0         3".
Definition b195 : text := cr " 002142 OZONE INSTRUMENT SERIAL NUMBER/ IDENTIFICATION                   CCITTIA5                   0            0  32 CHARACTER                 0         4".
Definition b196 : text := cr " 002143 OZONE INSTRUMENT TYPE                                            CODE TABLE 2143            0            0   7 CODE TABLE 2143           0         3".
Definition b197 : text := cr " 002144 LIGHT SOURCE TYPE FOR BREWER SPECTRO PHOTOMETER                  CODE TABLE 2144            0            0   4 CODE TABLE 2144           0         2".
Definition b198 : text := cr " 002145 WAVE LENGTH SETTING FOR DOBSON INSTRUMENTS                       CODE TABLE 2145            0            0   4 CODE TABLE 2145           0         2".
Definition b199 : text := cr " 002146 SOURCE CONDITIONS FOR DOBSON INSTRUMENTS                         CODE TABLE 2146            0            0   4 CODE TABLE 2146           0         2".
Definition b200 : text := cr " 002148 DATA COLLECTION AND/OR LOCATION SYSTEM                           CODE TABLE 2148            0            0   5 CODE TABLE 2148           0         2".
Definition b201 : text := cr " 002149 TYPE OF DATA BUOY                                                CODE TABLE 2149            0            0   6 CODE TABLE 2149           0         2".
Definition b202 : text := cr " 002150 TOVS/ATOVS/AVHRR INSTRUMENTATION CHANNEL NUMBER                  CODE TABLE 2150            0            0   6 CODE TABLE 2150           0         2".
Definition b203 : text := cr " 002151 RADIOMETER IDENTIFIER                                            CODE TABLE 2151            0            0  11 CODE TABLE 2151           0         4".
Definition b204 : text := cr " 002152 SATELLITE INSTRUMENT USED IN DATA PROCESSING(6)                  FLAG TABLE 2152            0            0  31 FLAG TABLE 2152           0        10".
Definition b205 : text := cr " 002153 SATELLITE CHANNEL CENTRE FREQUENCY                               Hz                        -8            0  26 Hz                       -8         8".
Definition b206 : text := cr " 002154 SATELLITE CHANNEL BAND WIDTH                                     Hz                        -8            0  26 Hz                       -8         8".
Definition b207 : text := cr " 002156 PERCENTAGE OF VALID KU OCEAN RETRACKER MEASUREMENTS              %                          0            0   7 %                         0         3".
Definition b208 : text := cr " 002157 PERCENTAGE OF VALID S OCEAN RETRACKER MEASUREMENTS               %                          0            0   7 %                         0         3".
Definition b209 : text := cr " 002158 RA-2 INSTRUMENT                                                  FLAG TABLE 2158            0            0   9 FLAG TABLE 2158           0         3".
Definition b210 : text := cr " 002159 MWR INSTRUMENT                                                   FLAG TABLE 2159            0            0   8 FLAG TABLE 2159           0         3".
Definition b211 : text := " 002160 WAVE LENGTH OF THE RADAR                                         CODE TABLE 2160            0            0   4 CODE TABLE 2160           0         2".
Definition b212 : text := cr " 002163 HEIGHT ASSIGNMENT METHOD                                         CODE TABLE 2163            0            0   4 CODE TABLE 2163           0         2".
Definition b213 : text := cr " 002164 TRACER CORRELATION METHOD                                        CODE TABLE 2164            0            0   3 CODE TABLE 2164           0         1".
Definition b214 : text := cr " 002166 RADIANCE TYPE                                                    CODE TABLE 2166            0            0   4 CODE TABLE 2166           0         2".
Definition b215 : text := cr " 002167 RADIANCE COMPUTATIONAL METHOD                                    CODE TABLE 2167            0            0   4 CODE TABLE 2167           0         2".
Definition b216 : text := cr " 002168 HYDROSTATIC PRESSURE OF LOWER END OF CABLE (THERMISTOR STRING)   PA                        -3            0  16 KPA                       0         5".
Definition b217 : text := cr " 002169 ANEMOMETER TYPE                                                  CODE TABLE 2169            0            0   4 CODE TABLE 2169           0         2".
Definition b218 : text := cr " 002172 PRODUCT TYPE FOR RETRIEVED ATMOSPHERIC GASES                     CODE TABLE 2172            0            0   8 CODE TABLE 2172           0         3".
Definition b219 : text := cr " 002173 SQUARE OF THE OFF NADIR ANGLE (7)                                DEGREE2                    4            0  10 DEGREE2                   4         4".
Definition b220 : text := cr " 002174 MEAN ACROSS TRACK PIXEL NUMBER                                   NUMERIC                    0            0   9 NUMERIC                   0         3".
Definition b221 : text := cr " 002175 METHOD OF PRECIPITATION MEASUREMENT                              CODE TABLE 2175            0            0   4 CODE TABLE 2175           0         2".
Definition b222 : text := cr " 002176 METHOD OF STATE OF GROUND MEASUREMENT                            CODE TABLE 2176            0            0   4 CODE TABLE 2176           0         2".
Definition b223 : text := cr " 002177 METHOD OF SNOW DEPTH MEASUREMENT                                 CODE TABLE 2177            0            0   4 CODE TABLE 2177           0         2".
Definition b224 : text := cr " 002178 METHOD OF LIQUID CONTENT MEASUREMENT OF PRECIPITATION            CODE TABLE 2178            0            0   4 CODE TABLE 2178           0         2".
Definition b225 : text := cr " 002179 TYPE OF SKY CONDITION ALGORITHM                                  CODE TABLE 2179            0            0   4 CODE TABLE 2179           0         2".
Definition b226 : text := cr " 002180 MAIN PRESENT WEATHER DETECTING SYSTEM                            CODE TABLE 2180            0            0   4 CODE TABLE 2180           0         2".
Definition b227 : text := cr " 002181 SUPPLEMENTARY PRESENT WEATHER SENSOR                             FLAG TABLE 2181            0            0  21 FLAG TABLE 2181           0         7".
Definition b228 : text := cr " 002182 VISIBILITY MEASUREMENT SYSTEM                                    CODE TABLE 2182            0            0   4 CODE TABLE 2182           0         2".
Definition b229 : text := cr " 002183 CLOUD DETECTION SYSTEM                                           CODE TABLE 2183            0            0   4 CODE TABLE 2183           0         2".
Definition b230 : text := cr " 002184 TYPE OF LIGHTNING DETECTION SENSOR                               CODE TABLE 2184            0            0   4 CODE TABLE 2184           0         2".
Definition b231 : text := cr " 002185 METHOD OF EVAPORATION MEASUREMENT                                CODE TABLE 2185            0            0   4 CODE TABLE 2185           0         2".
Definition b232 : text := cr " 002186 CAPABILITY TO DETECT PRECIPITATION PHENOMENA                     FLAG TABLE 2186            0            0  30 FLAG TABLE 2186           0        10".
Definition b233 : text := cr " 002187 CAPABILITY TO DETECT OTHER WEATHER PHENOMENA                     FLAG TABLE 2187            0            0  18 FLAG TABLE 2187           0         6".
Definition b234 : text := cr " 002188 CAPABILITY TO DETECT OBSCURATION                                 FLAG TABLE 2188            0            0  21 FLAG TABLE 2188           0         7".
Definition b235 : text := cr " 002189 CAPABILITY TO DISCRIMINATE LIGHTNING STRIKES                     FLAG TABLE 2189            0            0  12 FLAG TABLE 2189           0         4".
Definition b236 : text := cr " 002190 LAGRANGIAN DRIFTER SUBMERGENCE (% TIME SUBMERGED)                %                          0            0   7 %                         0         3".
Definition b237 : text := " 002193 1D VAR SATELLITE CHANNEL(S) USED                                 FLAG TABLE 2193            0            0  28  ".
Definition b238 : text := " 002194 CONSTANT LEVEL BALLOON TYPE                                      CODE TABLE 2194            0            0   4  ".
Definition b239 : text := " 002195 TYPE OF SATELLITE INSTRUMENTATION                                CODE TABLE 2195            0            0   4  ".
Definition b240 : text := " 002196 SATELLITE CLASSIFICATION                                         CODE TABLE 2196            0            0   9  ".
Definition b241 : text := " 002197 SATELLITE CHANNEL CENTRE FREQUENCY                               Hz                        -8            0  26  ".
Definition b242 : text := " 002198 SATELLITE CHANNEL BAND WIDTH                                     Hz                        -8            0  26  ".
Definition b243 : text := " 002199 INTEGRATED MEAN HUMIDITY COMPUTATIONAL METHOD                    CODE TABLE 2199            0            0   4  ".
Definition b244 : text := " 002200 LATITUDINAL RESOLUTION                                           DEGREE                     5            0  25  ".
Definition b245 : text := " 002202 SIMULATED DATA PROCESSING TECHNIQUE USED                         FLAG TABLE 2202            0            0   4  ".
Definition b246 : text := " 002220 DATA PRODUCER                                                    CODE TABLE 2220            0            0   9  ".
Definition b247 : text := " 002221 SEGMENT SIZE AT NADIR IN X DIRECTION                             M                          0            0  18  ".
Definition b248 : text := " 002222 SEGMENT SIZE AT NADIR IN Y DIRECTION                             M                          0            0  18  ".
Definition b249 : text := " 002223 TOVS/ATOVS/AVHRR CHANNEL NUMBER                                  CODE TABLE 2223            0            0   6  ".
Definition b250 : text := " 002231 HEIGHT ASSIGNMENT METHOD                                         CODE TABLE 2231            0            0   4  ".
Definition b251 : text := " 002232 TRACER CORRELATION METHOD                                        CODE TABLE 2232            0            0   3  ".
Definition b252 : text := " 002240 TYPE OF TERMODYNAMIC SENSING                                     CODE TABLE 2240            0            0   8  ".
Definition b253 : text := " 002241 TYPE OF ROCKET MOTOR                                             CODE TABLE 2241            0            0   3  ".
Definition b254 : text := " 002242 TYPE OF WIND SENSING EQUIPMENT                                   CODE TABLE 2242            0            0   8  ".
Definition b255 : text := " 002243 TERMODYNAMIC CORRECTION TECHNIQUE                                CODE TABLE 2243            0            0   3  ".
Definition b256 : text := " 002244 WIND CORRECTION TECHNIQUE                                        CODE TABLE 2244            0            0   3  ".
Definition b257 : text := " 002245 METHOD OF REDUCING OF DATA                                       CODE TABLE 2245            0            0   4  ".
Definition b258 : text := " 002251 RADIANCE COMPUTATIONAL METHOD                                    CODE TABLE 2251            0            0   4  ".
Definition b259 : text := " 002252 SATELLITE INSTRUMENT DATA USED IN PROCESSING                     FLAG TABLE 2252            0            0  31  ".
Definition b260 : text := " 002253 HUMIDITY COMPUTATIONAL METHOD                                    CODE TABLE 2253            0            0   8  ".
Definition b261 : text := " 002254 RADIANCE TYPE                                                    CODE TABLE 2254            0            0   4  ".
Definition b262 : text := cr " 004001 YEAR                                                             YEAR                       0            0  12 YEAR                      0         4".
Definition b263 : text := cr " 004002 MONTH                                                            MONTH                      0            0   4 MONTH                     0         2".
Definition b264 : text := cr " 004003 DAY                                                              DAY                        0            0   6 DAY                       0         2".
Definition b265 : text := cr " 004004 HOUR                                                             HOUR                       0            0   5 HOUR                      0         2".
Definition b266 : text := cr " 004005 MINUTE                                                           MINUTE                     0            0   6 MINUTE                    0         2".
Definition b267 : text := cr " 004006 SECOND                                                           SECOND                     0            0   6 SECOND                    0         2".
Definition b268 : text := cr " 004007 SECONDS WITHIN A MINUTE (MICROSECOND ACCURACY)                   SECOND                     6            0  26 S                         6         8".
Definition b269 : text := cr " 004011 TIME INCREMENT                                                   YEAR                       0        -1024  11 YEAR                      0         4".
Definition b270 : text := cr " 004012 TIME INCREMENT                                                   MONTH                      0        -1024  11 MONTH                     0         4".
Definition b271 : text := cr " 004013 TIME INCREMENT                                                   DAY                        0        -1024  11 DAY                       0         4".
Definition b272 : text := cr " 004014 TIME INCREMENT                                                   HOUR                       0        -1024  11 HOUR                      0         4".
Definition b273 : text := cr " 004015 TIME INCREMENT                                                   MINUTE                     0        -2048  12 MINUTE                    0         4".
Definition b274 : text := cr " 004016 TIME INCREMENT                                                   SECOND                     0        -4096  13 SECOND                    0         4".
Definition b275 : text := cr " 004017 REFERENCE TIME PERIOD FOR ACCUMULATED OR EXTREME DATA            MINUTE                     0        -1440  12 MINUTE                    0         4".
Definition b276 : text := cr " 004021 TIME PERIOD OR DISPLACEMENT                                      YEAR                       0        -1024  11 YEAR                      0         4".
Definition b277 : text := cr " 004022 TIME PERIOD OR DISPLACEMENT                                      MONTH                      0        -1024  11 MONTH                     0         4".
Definition b278 : text := cr " 004023 TIME PERIOD OR DISPLACEMENT                                      DAY                        0        -1024  11 DAY                       0         4".
Definition b279 : text := cr " 004024 TIME PERIOD OR DISPLACEMENT                                      HOUR                       0        -2048  12 HOUR                      0         4".
Definition b280 : text := cr " 004025 TIME PERIOD OR DISPLACEMENT                                      MINUTE                     0        -2048  12 MINUTE                    0         4".
Definition b281 : text := cr " 004026 TIME PERIOD OR DISPLACEMENT                                      SECOND                     0        -4096  13 SECOND                    0         4".
Definition b282 : text := cr " 004031 DURATION OF TIME RELATING TO FOLLOWING VALUE                     HOUR                       0            0   8 HOUR                      0         3".
Definition b283 : text := cr " 004032 DURATION OF TIME RELATING TO FOLLOWING VALUE                     MINUTE                     0            0   6 MINUTE                    0         2".
Definition b284 : text := cr " 004041 TIME DIFFERENCE, UTC -LMT (SEE NOTE 6)                           MINUTE                     0        -1440  12 MINUTE                    0         4".
Definition b285 : text := cr " 004043 DAY OF THE YEAR                                                  DAY                        0            0   9 DAY                       0         3".
Definition b286 : text := cr " 004051 PRINCIPAL TIME OF DAILY READING OF MAXIMUM TEMPERATURE           HOUR                       0            0   5 HOUR                      0         2".
Definition b287 : text := cr " 004052 PRINCIPAL TIME OF DAILY READING OF MINIMUM TEMPERATURE           HOUR                       0            0   5 HOUR                      0         2".
Definition b288 : text := cr " 004053 NUMBER OF DAYS WITH PRECIPITATION EQUAL TO OR MORE THAN 1 MM     NUMERIC                    0            0   6 NUMERIC                   0         2".
Definition b289 : text := cr " 004059 TIMES OF OBSERVATION USED TO COMPUTE THE REPORTED MEAN VALUES    FLAG TABLE 4059            0            0   6 FLAG TABLE 4059           0         2".
Definition b290 : text := cr " 004065 SHORT TIME INCREMENT                                             MINUTE                     0         -128   8 MINUTE                    0         2".
Definition b291 : text := cr " 004073 SHORT TIME PERIOD OR DISPLACEMENT                                DAY                        0         -128   8 DAY                       0         2".
Definition b292 : text := cr " 004074 SHORT TIME PERIOD OR DISPLACEMENT                                HOUR                       0         -128   8 HOUR                      0         2".
Definition b293 : text := cr " 004075 SHORT TIME PERIOD OR DISPLACEMENT                                MINUTE                     0         -128   8 MINUTE                    0         2".
Definition b294 : text := " 004080 AVERAGING PERIOD FOR FOLLOWING VALUE                             CODE TABLE 4080            0            0   4 CODE TABLE 4080           0         2".
Definition b295 : text := cr " 004086 LONG TIME PERIOD OR DISPLACEMENT                                 SECOND                     0        -8192  15 SECOND                    0         5".
Definition b296 : text := cr " 005001 LATITUDE (HIGH ACCURACY)                                         DEGREE                     5     -9000000  25 DEGREE                    5         7".
Definition b297 : text := cr " 005002 LATITUDE (COARSE ACCURACY)                                       DEGREE                     2        -9000  15 DEGREE                    2         4".
Definition b298 : text := cr " 005011 LATITUDE INCREMENT (HIGH ACCURACY)                               DEGREE                     5     -9000000  25 DEGREE                    5         7".
Definition b299 : text := cr " 005012 LATITUDE INCREMENT (COARSE ACCURACY)                             DEGREE                     2        -9000  15 DEGREE                    2         4".
Definition b300 : text := cr " 005015 LATITUDE DISPLACEMENT (HIGH ACCURACY)                            DEGREE                     5     -9000000  25 DEGREE                    5         7".
Definition b301 : text := cr " 005016 LATITUDE DISPLACEMENT (COARSE ACCURACY)                          DEGREE                     2        -9000  15 DEGREE                    2         4".
Definition b302 : text := cr " 005021 BEARING OR AZIMUTH                                               DEGREE TRUE                2            0  16 DEGREE TRUE               2         5".
Definition b303 : text := cr " 005022 SOLAR AZIMUTH                                                    DEGREE TRUE                2            0  16 DEGREE TRUE               2         5".
Definition b304 : text := cr " 005023 SUN TO SATELLITE AZIMUTH DIFFERENCE                              DEGREE                     1        -1800  12 DEGREE                    1         4".
Definition b305 : text := cr " 005030 DIRECTION (SPECTRAL)                                             DEGREE                     0            0  12 DEGREE                    0         4".
Definition b306 : text := cr " 005031 ROW NUMBER                                                       NUMERIC                    0            0  12 NUMERIC                   0         4".
Definition b307 : text := cr " 005033 PIXEL SIZE ON HORIZONTAL - 1                                     M                         -1            0  16 M                        -1         5".
Definition b308 : text := cr " 005034 ALONG TRACK ROW NUMBER                                           NUMERIC                    0            0  11 NUMERIC                   0         4".
Definition b309 : text := cr " 005036 SHIP TRANSECT NUMBER ACCORDING TO SOOP                           NUMERIC                    0            0   7 NUMERIC                   0         2".
Definition b310 : text := cr " 005040 ORBIT NUMBER                                                     NUMERIC                    0            0  24 NUMERIC                   0         8".
Definition b311 : text := cr " 005041 SCAN LINE NUMBER                                                 NUMERIC                    0            0   8 NUMERIC                   0         3".
Definition b312 : text := " 005042 CHANNEL NUMBER                                                   NUMERIC                    0            0   6 NUMERIC                   0         2^M".
Definition b313 : text := cr " 005043 FIELD OF VIEW NUMBER                                             NUMERIC                    0            0   8 NUMERIC                   0         3".
Definition b314 : text := cr " 005044 SATELLITE CYCLE NUMBER                                           NUMERIC                    0            0  11 NUMERIC                   0         4".
Definition b315 : text := cr " 005052 CHANNEL NUMBER INCREMENT                                         NUMERIC                    0            0   5 NUMERIC                   0         2".
Definition b316 : text := cr " 005053 FIELD OF VIEW NUMBER INCREMENT                                   NUMERIC                    0            0   5 NUMERIC                   0         2".
Definition b317 : text := " 005060 Y ANGULAR POSITION FROM CENTRE OF GRAVITY                        DEGREE                     6     -8000000  24 DEGREE                    6         8".
Definition b318 : text := " 005061 Z ANGULAR POSITION FROM CENTRE OF GRAVITY                        DEGREE                     6     -8000000  24 DEGREE                    6         8".
Definition b319 : text := " 005193 ALONG TRACK ROW NUMBER AT 50 KM                                  NUMERIC                    0            0  10 NUMERIC                   0         4 ".
Definition b320 : text := " 005194 ALONG TRACK ROW NUMBER AT 25 KM                                  NUMERIC                    0            0  11 NUMERIC                   0         4  ".
Definition b321 : text := " 005195 ENSEMBLE MEMBER NUMBER                                           NUMERIC                    0            0   7 NUMERIC                   0         3 ".
Definition b322 : text := " 005217 LOCATION OF PLATFORM, X                                          M                          2  -1073741824  31 M                         2        10 ".
Definition b323 : text := " 005232 DIRECTION (SPECTRAL)                                             DEGREE                     2            0  16 DEGREE                    2         5 ".
Definition b324 : text := cr " 006001 LONGITUDE (HIGH ACCURACY)                                        DEGREE                     5    -18000000  26 DEGREE                    5         8".
Definition b325 : text := cr " 006002 LONGITUDE (COARSE ACCURACY)                                      DEGREE                     2       -18000  16 DEGREE                    2         5".
Definition b326 : text := cr " 006011 LONGITUDE INCREMENT (HIGH ACCURACY)                              DEGREE                     5    -18000000  26 DEGREE                    5         8".
Definition b327 : text := cr " 006012 LONGITUDE INCREMENT (COARSE ACCURACY)                            DEGREE                     2       -18000  16 DEGREE                    2         5".
Definition b328 : text := cr " 006015 LONGITUDE DISPLACEMENT (HIGH ACCURACY)                           DEGREE                     5    -18000000  26 DEGREE                    5         8".
Definition b329 : text := cr " 006016 LONGITUDE DISPLACEMENT (COARSE ACCURACY)                         DEGREE                     2       -18000  16 DEGREE                    2         5".
Definition b330 : text := cr " 006021 DISTANCE                                                         M                         -1            0  13 M                        -1         4".
Definition b331 : text := cr " 006030 WAVE NUMBER (SPECTRAL)                                           RAD/M                      5            0  13 RAD/M                     5         4".
Definition b332 : text := cr " 006031 COLUMN NUMBER                                                    NUMERIC                    0            0  12 NUMERIC                   0         4".
Definition b333 : text := cr " 006033 PIXEL SIZE ON HORIZONTAL - 2                                     M                         -1            0  16 M                        -1         5".
Definition b334 : text := cr " 006034 CROSS-TRACK CELL NUMBER                                          NUMERIC                    0            0   7 NUMERIC                   0         3".
Definition b335 : text := cr " 006040 RADIUS OF CONFIDENCE                                             M                          0            0  13 M                         0         4".
Definition b336 : text := " 006193 CROSS TRACK CELL NUMBER AT 50 KM                                 NUMERIC                    0            0   6 NUMERIC                   0         2 ".
Definition b337 : text := " 006194 CROSS TRACK CELL NUMBER AT 25 KM                                 NUMERIC                    0            0   7 NUMERIC                   0         3 ".
Definition b338 : text := " 006217 LOCATION OF PLATFORM, Y                                          M                          2  -1073741824  31 M                         2        10 ".
Definition b339 : text := " 006232 WAVENUMBER (SPECTRAL)                                            RADS/M                     5            0  13 ADS/M                     5         4".
Definition b340 : text := cr " 007001 HEIGHT OF STATION (SEE NOTE 1)                                   M                          0         -400  15 M                         0         5".
Definition b341 : text := cr " 007002 HEIGHT OR ALTITUDE                                               M                         -1          -40  16 M                        -1         5".
Definition b342 : text := cr " 007003 GEOPOTENTIAL                                                     M**2/S**2                 -1         -400  17 M**2/S**2                -1         6".
Definition b343 : text := cr " 007004 PRESSURE                                                         PA                        -1            0  14 PA                       -1         5".
Definition b344 : text := cr " 007005 HEIGHT INCREMENT                                                 M                          0         -400  12 M                         0         4".
Definition b345 : text := cr " 007006 HEIGHT ABOVE STATION                                             M                          0            0  15 M                         0         5".
Definition b346 : text := cr " 007007 HEIGHT                                                           M                          0        -1000  17 M                         0         6".
Definition b347 : text := cr " 007008 GEOPOTENTIAL                                                     M**2/S**2                  0       -10000  20 M**2/S**2                 0         7".
Definition b348 : text := cr " 007009 GEOPOTENTIAL HEIGHT                                              GPM                        0        -1000  17 GPM                       0         5".
Definition b349 : text := cr " 007010 FLIGHT LEVEL                                                     M                          0        -1024  16 FT                       -1         5".
Definition b350 : text := cr " 007021 ELEVATION (SEE NOTE 2)                                           DEGREE                     2        -9000  15 DEGREE                    2         5".
Definition b351 : text := cr " 007022 SOLAR ELEVATION                                                  DEGREE                     2        -9000  15 DEGREE                    2         5".
Definition b352 : text := cr " 007024 SATELLITE ZENITH ANGLE                                           DEGREE                     2        -9000  15 DEGREE                    2         5".
Definition b353 : text := cr " 007025 SOLAR ZENITH ANGLE                                               DEGREE                     2        -9000  15 DEGREE                    2         5".
Definition b354 : text := cr " 007026 SATELLITE ZENITH ANGLE                                           DEGREE                     4      -900000  21 DEGREE                    4         7".
Definition b355 : text := cr " 007030 HEIGHT OF STATION GROUND ABOVE MEAN SEA LEVEL (SEE NOTE 3)       M                          1       - 4000  17 M                         1         5".
Definition b356 : text := cr " 007031 HEIGHT OF BAROMETER ABOVE MEAN SEA LEVEL (SEE NOTE 4)            M                          1       - 4000  17 M                         1         5".
Definition b357 : text := cr " 007032 HEIGHT OF SENSOR ABOVE LOCAL GROUND (OR DECK OF MARINE PLATFORM) M                          2            0  16 M                         2         5".
Definition b358 : text := cr " 007033 HEIGHT OF SENSOR ABOVE WATER SURFACE (SEE NOTE 6)                M                          1            0  12 M                         1         4".
Definition b359 : text := cr " 007040 IMPACT PARAMETER (SEE NOTE 8)                                    M                          1     62000000  22 M                         1         8".
Definition b360 : text := cr " 007061 DEPTH BELOW LAND SURFACE                                         M                          2            0  14 M                         2         5".
Definition b361 : text := cr " 007062 DEPTH BELOW SEA/WATER SURFACE                                    M                          1            0  17 M                         1         6".
Definition b362 : text := " 007063 DEPTH BELOW SEA/WATER SURFACE                                    M                          2            0  20 M                         2         7".
Definition b363 : text := cr " 007064 REPRESENTATIVE HEIGHT OF SENSOR ABOVE STATION (SEE NOTE 7)       M                          0            0   4 M                         0         2".
Definition b364 : text := " 007065 WATER PRESSURE                                                   PA                        -3            0  17 PA                        0         6".
Definition b365 : text := cr " 007070 DROGUE DEPTH                                                     M                          0            0  10 M                         0         4".
Definition b366 : text := " 007217 LOCATION OF PLATFORM, Z                                          M                          2  -1073741824  31 M                         2        10 ".
Definition b367 : text := cr " 008001 VERTICAL SOUNDING SIGNIFICANCE                                   FLAG TABLE 8001            0            0   7 FLAG TABLE 8001           0         3".
Definition b368 : text := cr " 008002 VERTICAL SIGNIFICANCE (SURFACE OBSERVATIONS)                     CODE TABLE 8002            0            0   6 CODE TABLE 8002           0         2".
Definition b369 : text := cr " 008003 VERTICAL SIGNIFICANCE (SATELLITE OBSERVATIONS)                   CODE TABLE 8003            0            0   6 CODE TABLE 8003           0         2".
Definition b370 : text := cr " 008004 PHASE OF AIRCRAFT FLIGHT                                         CODE TABLE 8004            0            0   3 CODE TABLE 8004           0         1".
Definition b371 : text := cr " 008005 METEOROLOGICAL ATTRIBUTE SIGNIFICANCE                            CODE TABLE 8005            0            0   4 CODE TABLE 8005           0         2".
Definition b372 : text := cr " 008006 OZONE VERTICAL SOUNDING SIGNIFICANCE                             FLAG TABLE 8006            0            0   9 FLAG TABLE 8006           0         3".
Definition b373 : text := cr " 008007 DIMENSIONAL SIGNIFICANCE                                         CODE TABLE 8007            0            0   4 CODE TABLE 8007           0         2".
Definition b374 : text := cr " 008008 RADIATION VERTICAL SOUNDING SIGNIFICANCE                         FLAG TABLE 8008            0            0   9 FLAG TABLE 8008           0         3".
Definition b375 : text := cr " 008009 DETAILED PHASE OF FLIGHT                                         CODE TABLE 8009            0            0   4 CODE TABLE 8009           0         2".
Definition b376 : text := cr " 008010 SURFACE QUALIFIER (TEMPERATURE DATA)                             CODE TABLE 8010            0            0   5 CODE TABLE 8010           0         2".
Definition b377 : text := cr " 008011 METEOROLOGICAL FEATURE                                           CODE TABLE 8011            0            0   6 CODE TABLE 8011           0         2".
Definition b378 : text := cr " 008012 LAND/SEA QUALIFIER                                               CODE TABLE 8012            0            0   2 CODE TABLE 8012           0         1".
Definition b379 : text := cr " 008013 DAY/NIGHT QUALIFIER                                              CODE TABLE 8013            0            0   2 CODE TABLE 8013           0         1".
Definition b380 : text := cr " 008014 QUALIFIER FOR RUNWAY VISUAL RANGE                                CODE TABLE 8014            0            0   4 CODE TABLE 8014           0         2".
Definition b381 : text := cr " 008016 CHANGE QUALIFIER OF A TREND-TYPE FORECAST OR AN AERODROME FORECA CODE TABLE 8016            0            0   3 CODE TABLE 8016           0         1".
Definition b382 : text := cr " 008017 QUALIFIER OF THE TIME WHEN THE FORECAST CHANGE IS EXPECTED       CODE TABLE 8017            0            0   2 CODE TABLE 8017           0         1".
Definition b383 : text := cr " 008018 SEAWINDS LAND/ICE SURFACE TYPE                                   FLAG TABLE 8018            0            0  17 FLAG TABLE 8018           0         6".
Definition b384 : text := cr " 008020 TOTAL NUMBER OF MISSING ENTITIES (WITH RESPECT TO ACCUMULATION O NUMERIC                    0            0  16 NUMERIC                   0         5".
Definition b385 : text := cr " 008021 TIME SIGNIFICANCE                                                CODE TABLE 8021            0            0   5 CODE TABLE 8021           0         2".
Definition b386 : text := cr " 008022 TOTAL NUMBER (WITH RESPECT TO ACCUMULATION OR AVERAGE)           NUMERIC                    0            0  16 NUMERIC                   0         5".
Definition b387 : text := cr " 008023 FIRST ORDER STATISTICS                                           CODE TABLE 8023            0            0   6 CODE TABLE 8023           0         2".
Definition b388 : text := cr " 008024 DIFFERENCE STATISTICS                                            CODE TABLE 8024            0            0   6 CODE TABLE 8024           0         2".
Definition b389 : text := cr " 008025 TIME DIFFERENCE QUALIFIER                                        CODE TABLE 8025            0            0   4 CODE TABLE 8025           0         2".
Definition b390 : text := " 008029 REMOTLY SENSED SURFACE TYPE                                      CODE TABLE 8029            0            0   8 CODE TABLE 8029           0         3".
Definition b391 : text := cr " 008030 MANUAL ON CODES (VOLUME I.1, SECTION C) CODE TABLE FROM WHICH DA NUMERIC                    0            0  13 NUMERIC                   0         4".
Definition b392 : text := cr " 008031 DATA CATEGORY CREX TABLE A                                       NUMERIC                    0            0   8 NUMERIC                   0         3".
Definition b393 : text := cr " 008033 METHOD OF DERIVATION OF PERCENTAGE CONFIDENCE                    CODE TABLE 8033            0            0   7 CODE TABLE 8033           0         3".
Definition b394 : text := cr " 008035 TYPE OF MONITORING EXERCISE                                      CODE TABLE 8035            0            0   3 CODE TABLE 8035           0         1".
Definition b395 : text := cr " 008036 TYPE OF CENTRE OR STATION PERFORMING MONITORING                  CODE TABLE 8036            0            0   3 CODE TABLE 8036           0         1".
Definition b396 : text := " 008039 TIME SIGNIFICANCE ( AVIATION FORECAST)                           CODE TABLE 8039            0            0   6 CODE TABLE 8039           0         2".
Definition b397 : text := cr " 008040 FLIGHT LEVEL SIGNIFICANCE                                        CODE TABLE 8040            0            0   6 CODE TABLE 8040           0         2".
Definition b398 : text := cr " 008041 DATA SIGNIFICANCE                                                CODE TABLE 8041            0            0   5 CODE TABLE 8041           0         2".
Definition b399 : text := cr " 008042 EXTENDED VERTICAL SOUNDING SIGNIFICANCE                          FLAG TABLE 8042            0            0  18 FLAG TABLE 8042           0         6".
Definition b400 : text := cr " 008049 NUMBER OF OBSERVATIONS                                           NUMERIC                    0            0   8 NUMERIC                   0         3".
Definition b401 : text := cr " 008050 QUALIFIER FOR NUMBER OF MISSING VALUES IN CALCULATION OF STATIST CODE TABLE 8050            0            0   4 CODE TABLE 8050           0         2".
Definition b402 : text := cr " 008051 QUALIFIER FOR NUMBER OF MISSING VALUES IN CALCULATION OF STATIST CODE TABLE 8051            0            0   3 CODE TABLE 8051           0         1".
Definition b403 : text := cr " 008052 CONDITION FOR WHICH NUMBER OF DAYS OF OCCURRENCE FOLLOWS         CODE TABLE 8052            0            0   5 CODE TABLE 8052           0         2".
Definition b404 : text := cr " 008053 DAY OF OCCURRENCE QUALIFIER                                      CODE TABLE 8053            0            0   2 CODE TABLE 8053           0         1".
Definition b405 : text := " 008054 QUALIFIER FOR WIND SPEED OR WIND GUST                            CODE TABLE 8054            0            0   3 CODE TABLE 8054           0         1".
Definition b406 : text := cr " 008060 SAMPLE SCANNING MODE SIGNIFICANCE                                CODE TABLE 8060            0            0   4 CODE TABLE 8060           0         2".
Definition b407 : text := cr " 008065 SUN-GLINT INDICATOR                                              CODE TABLE 8065            0            0   2 CODE TABLE 8065           0         1".
Definition b408 : text := cr " 008066 SEMI-TRANSPARENCY INDICATOR                                      CODE TABLE 8066            0            0   2 CODE TABLE 8066           0         1".
Definition b409 : text := cr " 008070 TOVS/ATOVS PRODUCT QUALIFIER                                     CODE TABLE 8070            0            0   4 CODE TABLE 8070           0         2".
Definition b410 : text := cr " 008072 PIXEL(S) TYPE                                                    CODE TABLE 8072            0            0   3 CODE TABLE 8072           0         1".
Definition b411 : text := cr " 008074 ALTIMETER ECHO TYPE                                              CODE TABLE 8074            0            0   2 CODE TABLE 8074           0         1".
Definition b412 : text := cr " 008075 ASCENDING/DESCENDING ORBIT QUALIFIER                             CODE TABLE 8075            0            0   2 CODE TABLE 8075           0         1".
Definition b413 : text := cr " 008076 TYPE OF BAND                                                     CODE TABLE 8076            0            0   6 CODE TABLE 8076           0         2".
Definition b414 : text := " 008079 AVIATION PRODUCT STATUS                                          CODE TABLE 8079            0            0   4 CODE TABLE 8079           0         2".
Definition b415 : text := cr " 008081 TYPE OF EQUIPMENT                                                CODE TABLE 8081            0            0   6 CODE TABLE 8081           0         2".
Definition b416 : text := " 008082 (CBS) ARTIFICIAL CORRECTION OF SENSOR HEIGHT TO ANOTHER VALUE    CODE TABLE 8082            0            0   3 CODE TABLE 8082           0         1".
Definition b417 : text := " 008083 NOMINAL VALUE INDICATOR                                          FLAG TABLE 8083            0            0  15 FLAG TABLE 8083           0         5".
Definition b418 : text := " 008085 BEAM IDENTIFIER                                                  CODE TABLE 8085            0            0   3 CODE TABLE 8085           0         1".
Definition b419 : text := " 008193 TIME QUALIFIER                                                   CODE TABLE 8193            0            0   6 CODE TABLE 8193           0         2 ".
Definition b420 : text := " 008194 TOVS/ATOVS PRODUCT QUALIFIER                                     CODE TABLE 8194            0            0   4 CODE TABLE 8194           0         2 ".
Definition b421 : text := " 008195 DATA TYPE                                                        CODE TABLE 8195            0            0   7 CODE TABLE 8195           0         3 ".
Definition b422 : text := " 008200 NUMBER OF OBSERVATIONS                                           NUMERIC                    0            0   8 NUMERIC                   0         3 ".
Definition b423 : text := " 008222 GENERATOR SIGNIFICANCE                                           CODE TABLE 8222            0            0   4 CODE TABLE 8222           0         2 ".
Definition b424 : text := " 008223 LAND/ICE SURFACE FLAG                                            FLAG TABLE 8223            0            0   7 FLAG TABLE 8223           0         3 ".
Definition b425 : text := " 008224 LAND/SEA FRACTION                                                NUMERIC                    3            0  10 NUMERIC                   3         4 ".
Definition b426 : text := " 008225 GHRSST SURFACE TYPE                                              FLAG TABLE 8225            0            0   5 FLAG TABLE 8225           0         2".
Definition b427 : text := cr " 010001 HEIGHT OF LAND SURFACE                                           M                          0         -400  15 M                         0         5".
Definition b428 : text := cr " 010002 HEIGHT                                                           M                         -1          -40  16 M                        -1         5".
Definition b429 : text := cr " 010003 GEOPOTENTIAL                                                     M**2/S**2                 -1         -400  17 M**2/S**2                -1         6".
Definition b430 : text := cr " 010004 PRESSURE                                                         PA                        -1            0  14 PA                       -1         5".
Definition b431 : text := cr " 010007 HEIGHT                                                           M                          0        -1000  17 M                         0         6".
Definition b432 : text := cr " 010008 GEOPOTENTIAL                                                     M**2/S**2                  0       -10000  20 M**2/S**2                 0         7".
Definition b433 : text := cr " 010009 GEOPOTENTIAL HEIGHT                                              GPM                        0        -1000  17 GPM                       0         5".
Definition b434 : text := cr " 010010 MINIMUM PRESSURE REDUCED TO MEAN SEA LEVEL                       PA                        -1            0  14 PA                       -1         5".
Definition b435 : text := cr " 010011 MAXIMUM PRESSURE REDUCED TO MEAN SEA LEVEL                       PA                        -1            0  14 PA                       -1         5".
Definition b436 : text := cr " 010031 IN DIRECTION OF THE NORTH POLE, DISTANCE FROM THE EARTH'S CENTRE M                          2  -1073741824  31 M                         2        10".
Definition b437 : text := cr " 010032 SATELLITE DISTANCE TO EARTH'S CENTRE                             M                          1            0  27 M                         2         9".
Definition b438 : text := cr " 010033 ALTITUDE (PLATFORM TO ELLIPSOID)                                 M                          1            0  27 M                         2         9".
Definition b439 : text := cr " 010034 EARTH RADIUS                                                     M                          1            0  27 M                         2         9".
Definition b440 : text := cr " 010035 EARTH'S LOCAL RADIUS OF CURVATURE                                M                          1     62000000  22 M                         1         8".
Definition b441 : text := cr " 010036 GEOID UNDULATION (SEE NOTE 4)                                    M                          2       -15000  15 M                         2         6".
Definition b442 : text := cr " 010040 NUMBER OF RETRIEVED LAYERS                                       NUMERIC                    0            0  10 NUMERIC                   0         4".
Definition b443 : text := cr " 010050 STANDARD DEVIATION ALTITUDE                                      M                          2            0  16 M                         2         5".
Definition b444 : text := cr " 010051 PRESSURE REDUCED TO MEAN SEA LEVEL                               PA                        -1            0  14 PA                       -1         5".
Definition b445 : text := cr " 010052 ALTIMETER SETTING (QNH)                                          PA                        -1            0  14 PA                       -1         5".
Definition b446 : text := cr " 010060 PRESSURE CHANGE                                                  PA                        -1        -1024  11 PA                       -1         4".
Definition b447 : text := cr " 010061 3-HOUR PRESSURE CHANGE                                           PA                        -1         -500  10 PA                       -1         4".
Definition b448 : text := cr " 010062 24-HOUR PRESSURE CHANGE                                          PA                        -1        -1000  11 PA                       -1         4".
Definition b449 : text := cr " 010063 CHARACTERISTIC OF PRESSURE TENDENCY                              CODE TABLE 10063           0            0   4 CODE TABLE 10063          0         2".
Definition b450 : text := cr " 010070 INDICATED AIRCRAFT ALTITUDE                                      M                          0         -400  16 M                         0         5".
Definition b451 : text := cr " 010080 VIEWING ZENITH ANGLE                                             DEGREE                     2        -9000  15 DEGREE                    2         5".
Definition b452 : text := cr " 010081 ALTITUDE OF COG ABOVE REFERENCE ELLIPSOID                        M                          3            0  31 M                         3        10".
Definition b453 : text := cr " 010082 INSTANTANEOUS ALTITUDE RATE                                      MS-1                       3       -65536  17 MS-1                      3         6".
Definition b454 : text := cr " 010083 SQUARED OFF NADIR ANGLE OF THE SATELLITE FROM PLATFORM DATA      DEGREE2                    2            0  16 DEGREE2                   2         5".
Definition b455 : text := cr " 010084 SQUARED OFF NADIR ANGLE OF THE SATELLITE FROM WAVEFORM DATA      DEGREE2                    2            0  16 DEGREE2                   2         5".
Definition b456 : text := cr " 010085 MEAN SEA SURFACE HEIGHT                                          M                          3      -131072  18 M                         3         6".
Definition b457 : text := cr " 010086 GEOID'S HEIGHT                                                   M                          3      -131072  18 M                         3         6".
Definition b458 : text := cr " 010087 OCEAN DEPTH/LAND ELEVATION                                       M                          1      -131072  18 M                         3         6".
Definition b459 : text := cr " 010088 TOTAL GEOCENTRIC OCEAN TIDE HEIGHT SOLUTION 1                    M                          3       -32768  16 M                         3         5".
Definition b460 : text := cr " 010089 TOTAL GEOCENTRIC OCEAN TIDE HEIGHT SOLUTION 2                    M                          3       -32768  16 M                         3         5".
Definition b461 : text := cr " 010090 LONG PERIOD  TIDE HEIGHT                                         M                          3       -32768  16 M                         3         5".
Definition b462 : text := cr " 010091 TIDAL LOADING HEIGHT                                             M                          3       -32768  16 M                         3         5".
Definition b463 : text := cr " 010092 SOLID EARTH TIDE HEIGHT                                          M                          3       -32768  16 M                         3         5".
Definition b464 : text := cr " 010093 GEOCENTRIC POLE TIDE HEIGHT                                      M                          3       -32768  16 M                         3         5".
Definition b465 : text := " 010095 HEIGHT OF ATMOSPHERE USED                                        M                          0            0  16 M                         0         5".
Definition b466 : text := " 010195 HEIGHT(HIGH ACCURACY)                                            M                          1        -4096  20  ".
Definition b467 : text := " 010196 SOLAR ZENITH ANGLE                                               DEGREE                     2        -9000  15  ".
Definition b468 : text := " 010197 ANEMOMETER HEIGHT                                                M                          0            0   9  ".
Definition b469 : text := cr " 011001 WIND DIRECTION                                                   DEGREE TRUE                0            0   9 DEGREE TRUE               0         3".
Definition b470 : text := cr " 011002 WIND SPEED                                                       M/S                        1            0  12 M/S                       1         4".
Definition b471 : text := cr " 011003 U-COMPONENT                                                      M/S                        1        -4096  13 M/S                       1         4".
Definition b472 : text := cr " 011004 V-COMPONENT                                                      M/S                        1        -4096  13 M/S                       1         4".
Definition b473 : text := cr " 011005 W-COMPONENT                                                      PA/S                       1         -512  10 PA/S                      1         4".
Definition b474 : text := cr " 011006 W-COMPONENT                                                      M/S                        2        -4096  13 M/S                       2         4".
Definition b475 : text := cr " 011010 WIND DIRECTION ASSOCIATED WITH WIND SPEED WHICH FOLLOWS          DEGREE TRUE                0            0   9 DEGREE TRUE               0         3".
Definition b476 : text := cr " 011011 WIND DIRECTION AT 10 M                                           DEGREE TRUE                0            0   9 DEGREE TRUE               0         3".
Definition b477 : text := cr " 011012 WIND SPEED AT 10 M                                               M/S                        1            0  12 M/S                       1         4".
Definition b478 : text := cr " 011013 WIND DIRECTION AT 5 M                                            DEGREE TRUE                0            0   9 DEGREE TRUE               0         3".
Definition b479 : text := cr " 011014 WIND SPEED AT 5 M                                                M/S                        1            0  12 M/S                       1         4".
Definition b480 : text := cr " 011016 EXTREME COUNTERCLOCKWISE WIND DIRECTION OF A VARIABLE WIND       DEGREE TRUE                0            0   9 DEGREE TRUE               0         3".
Definition b481 : text := cr " 011017 EXTREME CLOCKWISE WIND DIRECTION OF A VARIABLE WIND              DEGREE TRUE                0            0   9 DEGREE TRUE               0         3".
Definition b482 : text := cr " 011019 STEADINESS OF WIND (6)                                           %                          0            0   7 %                         0         3".
Definition b483 : text := cr " 011021 RELATIVE VORTICITY                                               1/S                        9       -65536  17 1/S                       9         6".
Definition b484 : text := cr " 011022 DIVERGENCE                                                       1/S                        9       -65536  17 1/S                       9         6".
Definition b485 : text := cr " 011023 VELOCITY POTENTIAL                                               M**2/S                    -2       -65536  17 M**2/S                   -2         6".
Definition b486 : text := " 011030 EXTENDED DEGREE OF TURBULENCE                                    CODE TABLE 11030           0            0   6 CODE TABLE                0         2".
Definition b487 : text := cr " 011031 DEGREE OF TURBULENCE                                             CODE TABLE 11031           0            0   4 CODE TABLE 11031          0         2".
Definition b488 : text := cr " 011032 HEIGHT OF BASE OF TURBULENCE                                     M                         -1          -40  16 M                        -1         5".
Definition b489 : text := cr " 011033 HEIGHT OF TOP OF TURBULENCE                                      M                         -1          -40  16 M                        -1         5".
Definition b490 : text := cr " 011034 VERTICAL GUST VELOCITY                                           M/S                        1        -1024  11 M/S                       1         4".
Definition b491 : text := cr " 011035 VERTICAL GUST ACCELERATION                                       M/S**2                     2        -8192  14 M/S**2                    2         5".
Definition b492 : text := cr " 011036 MAXIMUM DERIVED EQUIVALENT VERTICAL GUST SPEED                   M/S                        1            0  10 M/S                       1         4".
Definition b493 : text := cr " 011037 TURBULENCE INDEX                                                 CODE TABLE 11037           0            0   6 CODE TABLE 11037          0         2".
Definition b494 : text := cr " 011038 TIME OF OCCURRENCE OF PEAK EDDY DISSIPATION RATE                 CODE TABLE 11038           0            0   5 CODE TABLE 11038          0         2".
Definition b495 : text := cr " 011039 EXTENDED TIME OF OCCURRENCE OF PEAK  EDDY DISSIPATION RATE       CODE TABLE 11039           0            0   6 CODE TABLE 11039          0         2".
Definition b496 : text := cr " 011040 MAXIMUM WIND SPEED (MEAN WIND)                                   M/S                        1            0  12 M/S                       1         4".
Definition b497 : text := cr " 011041 MAXIMUM WIND GUST SPEED                                          M/S                        1            0  12 M/S                       1         4".
Definition b498 : text := cr " 011042 MAXIMUM WIND SPEED (10-MIN MEAN WIND)                            M/S                        1            0  12 M/S                       1         4".
Definition b499 : text := cr " 011043 MAXIMUM WIND GUST DIRECTION                                      DEGREE TRUE                0            0   9 DEGREE TRUE               0         3".
Definition b500 : text := cr " 011044 MEAN WIND DIRECTION FOR SURFACE - 1500 M (5000 FEET)             DEGREE TRUE                0            0   9 DEGREE TRUE               0         3".
Definition b501 : text := cr " 011045 MEAN WIND SPEED FOR SURFACE - 1500 M (5000 FEET)                 M/S                        1            0  12 M/S                       1         4".
Definition b502 : text := cr " 011046 MAXIMUM INSTANTANEOUS WIND SPEED                                 M/S                        1            0  12 M/S                       1         4".
Definition b503 : text := cr " 011047 MAXIMUM INSTANTANEOUS WIND SPEED OVER 10 MINUTES                 M/S                        1            0  12 M/S                       1         4".
Definition b504 : text := cr " 011049 STANDARD DEVIATION OF WIND DIRECTION                             DEGREE TRUE                0            0   9 DEGREE TRUE               0         3".
Definition b505 : text := cr " 011050 STANDARD DEVIATION OF HORIZONTAL WIND SPEED                      M/S                        1            0  12 M/S                       1         4".
Definition b506 : text := cr " 011051 STANDARD DEVIATION OF VERTICAL WIND SPEED                        M/S                        1            0   8 M/S                       1         3".
Definition b507 : text := cr " 011052 FORMAL UNCERTAINTY IN WIND SPEED                                 M/S                        2            0  13 M/S                       2         5".
Definition b508 : text := cr " 011053 FORMAL UNCERTAINTY IN WIND DIRECTION                             DEGREE TRUE                2            0  15 DEGREE TRUE               2         5".
Definition b509 : text := " 011054 MEAN WIND DIRECTION FOR 1500 M - 3000 M                          DEGREE TRUE                0            0   9 DEGREE TRUE               0         3".
Definition b510 : text := " 011055 MEAN WIND SPEED FOR 1500 M - 3000 M                              M/S                        1            0  12 M/S                       1         4".
Definition b511 : text := cr " 011061 ABSOLUTE WIND SHEAR IN 1 KM LAYER BELOW                          M/S                        1            0  12 M/S                       1         4".
Definition b512 : text := cr " 011062 ABSOLUTE WIND SHEAR IN 1 KM LAYER ABOVE                          M/S                        1            0  12 M/S                       1         4".
Definition b513 : text := cr " 011070 DESIGNATOR OF THE RUNWAY AFFECTED BY WIND SHEAR (INCLUDING ALL)  CCITTIA5                   0            0  32 CHARACTER                 0         4".
Definition b514 : text := cr " 011071 TURBULENT VERTICAL MOMENTUM FLUX                                 M**2/S**2                  3         -128  14 M**2/S**2                 3         5".
Definition b515 : text := cr " 011072 TURBULENT VERTICAL BUOYANCY FLUX                                 KM/S                       3         -128  11 KM/S                      3         4".
Definition b516 : text := cr " 011073 TURBULENT KINETIC ENERGY                                         M**2/S**2                  2        -1024  13 M**2/S**2                 2         4".
Definition b517 : text := cr " 011074 DISSIPATION ENERGY                                               M**2/S**2                  2        -1024  10 M**2/S**2                 2         4".
Definition b518 : text := cr " 011075 MEAN TURBULENCE INTENSITY (EDDY DISSIPATION RATE)                M**(2/3)/S                 2            0   8 M**(2/3)/S                2         3".
Definition b519 : text := cr " 011076 PEAK TURBULENCE INTENSITY (EDDY DISSIPATION RATE)                M**(2/3)/S                 2            0   8 M**(2/3)/S                2         3".
Definition b520 : text := cr " 011077 REPORTING INTERVAL OR AVERAGING TIME FOR EDDY DISSIPATION RATE   S                          0            0  12 S                         0         4".
Definition b521 : text := cr " 011081 MODEL WIND DIRECTION AT 10M                                      DEGREE TRUE                2            0  16 DEGREE TRUE               2         5".
Definition b522 : text := cr " 011082 MODEL WIND SPEED AT 10M                                          M/S                        2            0  14 M/S                       2         4".
Definition b523 : text := " 011083 WIND SPEED                                                       KM/HOUR                    0            0   9 KM/HOUR                   0         3".
Definition b524 : text := " 011084 WIND SPEED                                                       KNOT                       0            0   8 KNOT                      0         3".
Definition b525 : text := " 011085 MAXIMUM WIND GUST SPEED                                          KM/HOUR                    0            0   9 KM/HOUR                   0         3".
Definition b526 : text := " 011086 MAXIMUM WIND GUST SPEED                                          KNOT                       0            0   8 KNOT                      0         3".
Definition b527 : text := cr " 011095 U COMPONENT OF THE MODEL WIND VECTOR                             M/S                        1        -4096  13 M/S                       1         4".
Definition b528 : text := cr " 011096 V COMPONENT OF THE MODEL WIND VECTOR                             M/S                        1        -4096  13 M/S                       1         4".
Definition b529 : text := " 011192 U - COMPONENT AT 10 M                                            M/S                        1        -4096  13 M/S                       1         4^M".
Definition b530 : text := " 011193 V - COMPONENT AT 10 M                                            M/S                        1        -4096  13 M/S                       1         4^M ".
Definition b531 : text := " 011194 W - COMPONENT AT 10 M                                            M/S                        1        -4096  13 M/S                       1         4^M ".
Definition b532 : text := " 011195 STEADINESS OF WIND                                               %                          0            0   7 %                         0         3 ".
Definition b533 : text := " 011196 FRICTION VELOCITY                                                M/S                        5            0  19  ".
Definition b534 : text := " 011201 HORIZONTAL LINE OF SIGHT COMPONENT                               M/S                        1        -4096  13  ".
Definition b535 : text := " 011210 1D VAR WIND SPEED RETREIVED ERRO(S)                              M/S                        2            0  12  ".
Definition b536 : text := " 011211 WIND SPEED INDEPENDENT ESTIMATE OF ERROR(S)                      M/S                        2            0  12  ".
Definition b537 : text := " 011220 FORMAL UNCERTAINTY IN WIND SPEED                                 M/S                        2            0  12  ".
Definition b538 : text := " 011221 FORMAL UNCERTAINTY IN WIND DIRECTION                             DEGREE TRUE                2            0  15  ".
Definition b539 : text := " 011230 MAXIMUM MEAN WIND SPEED                                          M/S                        1        -4096  13 M/S                       1         4^M ".
Definition b540 : text := " 011231 MEAN WIND SPEED                                                  M/S                        1        -4096  13 M/S                       1         4^M ".
Definition b541 : text := " 011232 MINIMUM MEAN WIND SPEED                                          M/S                        1        -4096  13 M/S                       1         4^M ".
Definition b542 : text := " 011233 HIGHEST GUST DURING THE 10 MINUTE PERIOD PRECEDING OBSERVATION   M/S                        1        -4096  13 M/S                       1         4^M ".
Definition b543 : text := cr " 012001 TEMPERATURE/DRY-BULB TEMPERATURE                                 K                          1            0  12 C                         1         3".
Definition b544 : text := cr " 012002 WET-BULB TEMPERATURE                                             K                          1            0  12 C                         1         3".
Definition b545 : text := cr " 012003 DEW-POINT TEMPERATURE                                            K                          1            0  12 C                         1         3".
Definition b546 : text := cr " 012004 DRY-BULB TEMPERATURE AT 2 M                                      K                          1            0  12 C                         1         3".
Definition b547 : text := cr " 012005 WET-BULB TEMPERATURE AT 2 M                                      K                          1            0  12 C                         1         3".
Definition b548 : text := cr " 012006 DEW-POINT TEMPERATURE AT 2 M                                     K                          1            0  12 C                         1         3".
Definition b549 : text := cr " 012007 VIRTUAL TEMPERATURE                                              K                          1            0  12 C                         1         3".
Definition b550 : text := cr " 012011 MAXIMUM TEMPERATURE, AT HEIGHT AND OVER PERIOD SPECIFIED         K                          1            0  12 C                         1         3".
Definition b551 : text := cr " 012012 MINIMUM TEMPERATURE, AT HEIGHT AND OVER PERIOD SPECIFIED         K                          1            0  12 C                         1         3".
Definition b552 : text := cr " 012013 GROUND MINIMUM TEMPERATURE, PAST 12 HOURS                        K                          1            0  12 C                         1         3".
Definition b553 : text := cr " 012014 MAXIMUM TEMPERATURE AT 2 M, PAST 12 HOURS                        K                          1            0  12 C                         1         3".
Definition b554 : text := cr " 012015 MINIMUM TEMPERATURE AT 2 M, PAST 12 HOURS                        K                          1            0  12 C                         1         3".
Definition b555 : text := cr " 012016 MAXIMUM TEMPERATURE AT 2 M, PAST 24 HOURS                        K                          1            0  12 C                         1         3".
Definition b556 : text := cr " 012017 MINIMUM TEMPERATURE AT 2 M, PAST 24 HOURS                        K                          1            0  12 C                         1         3".
Definition b557 : text := cr " 012021 MAXIMUM TEMPERATURE AT 2M                                        K                          2            0  16 C                         2         4".
Definition b558 : text := cr " 012022 MINIMUM TEMPERATURE AT 2M                                        K                          2            0  16 C                         2         4".
Definition b559 : text := " 012023 TEMPERATURE                                                      C                          0          -99   8 C                         0         2".
Definition b560 : text := " 012024 DEW POINT TEMPERATURE                                            C                          0          -99   8 C                         0         2".
Definition b561 : text := cr " 012030 SOIL TEMPERATURE                                                 K                          1            0  12 C                         1         3".
Definition b562 : text := " 012049 Temperature change over specified period                         K                          0          -30   6 C                         0         2".
Definition b563 : text := cr " 012051 STANDARD DEVIATION TEMPERATURE                                   K                          1            0  10 C                         1         3".
Definition b564 : text := cr " 012052 HIGHEST DAILY MEAN TEMPERATURE                                   K                          1            0  12 C                         1         3".
Definition b565 : text := cr " 012053 LOWEST DAILY MEAN TEMPERATURE                                    K                          1            0  12 C                         1         3".
Definition b566 : text := cr " 012061 SKIN TEMPERATURE                                                 K                          1            0  12 C                         1         3".
Definition b567 : text := cr " 012062 EQUIVALENT BLACK BODY TEMPERATURE                                K                          1            0  12 C                         1         3".
Definition b568 : text := cr " 012063 BRIGHTNESS TEMPERATURE                                           K                          1            0  12 C                         1         3".
Definition b569 : text := cr " 012064 INSTRUMENT TEMPERATURE                                           K                          1            0  12 K                         1         4".
Definition b570 : text := cr " 012065 STANDARD DEVIATION BRIGHTNESS TEMPERATURE                        K                          1            0  12 K                         1         4".
Definition b571 : text := cr " 012070 WARM LOAD TEMPERATURE                                            K                          2            0  16 K                         2         5".
Definition b572 : text := cr " 012071 COLDEST CLUSTER TEMPERATURE                                      K                          1            0  12 K                         1         4".
Definition b573 : text := cr " 012072 RADIANCE                                                         WM**(-2)SR**(-1)           6            0  31 WM**(-2)SR**(-1)          6         9".
Definition b574 : text := " 012073 TEMPERATURE                                                      K                          2            0  16 K                         2         5".
Definition b575 : text := cr " 012075 SPECTRAL RADIANCE                                                WM**(-3)SR**(-1)          -3            0  16 WM**(-3)SR**(-1)         -3         5".
Definition b576 : text := cr " 012076 RADIANCE                                                         WM**(-2)SR**(-1)           3            0  16 WM**(-2)SR**(-1)          3         5".
Definition b577 : text := cr " 012101 TEMPERATURE/DRY-BULB TEMPERATURE                                 K                          2            0  16 C                         2         4".
Definition b578 : text := cr " 012102 WET-BULB TEMPERATURE                                             K                          2            0  16 C                         2         4".
Definition b579 : text := cr " 012103 DEW-POINT TEMPERATURE                                            K                          2            0  16 C                         2         4".
Definition b580 : text := cr " 012104 DRY-BULB TEMPERATURE AT 2M                                       K                          2            0  16 C                         2         4".
Definition b581 : text := cr " 012105 WEB-BULB TEMPERATURE AT 2M                                       K                          2            0  16 C                         2         4".
Definition b582 : text := cr " 012106 DEW-POINT TEMPERATURE AT 2M                                      K                          2            0  16 C                         2         4".
Definition b583 : text := cr " 012107 VIRTUAL TEMPERATURE                                              K                          2            0  16 C                         2         4".
Definition b584 : text := cr " 012111 MAXIMUM TEMPERATURE, AT HEIGHT AND OVER PERIOD SPECIFIED         K                          2            0  16 C                         2         4".
Definition b585 : text := cr " 012112 MINIMUM TEMPERATURE, AT HEIGHT AND OVER PERIOD SPECIFIED         K                          2            0  16 C                         2         4".
Definition b586 : text := cr " 012113 GROUND MINIMUM TEMPERATURE, PAST 12 HOURS                        K                          2            0  16 C                         2         4".
Definition b587 : text := cr " 012114 MAXIMUM TEMPERATURE AT 2M, PAST 12 HOURS                         K                          2            0  16 C                         2         4".
Definition b588 : text := cr " 012115 MINIMUM TEMPERATURE AT 2M, PAST 12 HOURS                         K                          2            0  16 C                         2         4".
Definition b589 : text := cr " 012116 MAXIMUM TEMPERATURE AT 2M, PAST 24 HOURS                         K                          2            0  16 C                         2         4".
Definition b590 : text := cr " 012117 MINIMUM TEMPERATURE AT 2M, PAST 24 HOURS                         K                          2            0  16 C                         2         4".
Definition b591 : text := cr " 012118 MAXIMUM TEMPERATURE AT HEIGHT SPECIFIED, PAST 24 HOURS           K                          2            0  16 C                         2         4".
Definition b592 : text := cr " 012119 MINIMUM  TEMPERATURE AT HEIGHT SPECIFIED, PAST 24 HOURS          K                          2            0  16 C                         2         4".
Definition b593 : text := " 012121 GROUND MINIMUM TEMPERATURE                                       K                          2            0  16 C                         2         4".
Definition b594 : text := " 012122 GROUND MINIMUM TEMPERATURE OF THE PRECEDING NIGHT                K                          2            0  16 C                         2         4".
Definition b595 : text := cr " 012130 SOIL TEMPERATURE                                                 K                          2            0  16 C                         2         4".
Definition b596 : text := cr " 012151 STANDARD DEVIATION OF DAILY MEAN TEMPERATURE                     K                          2            0  12 C                         2         4".
Definition b597 : text := cr " 012152 HIGHEST DAILY MEAN TEMPERATURE                                   K                          2            0  16 C                         2         4".
Definition b598 : text := cr " 012153 LOWEST DAILY MEAN TEMPERATURE                                    K                          2            0  16 C                         2         4".
Definition b599 : text := cr " 012161 SKIN TEMPERATURE                                                 K                          2            0  16 C                         2         4".
Definition b600 : text := cr " 012162 EQUIVALENT BLACK BODY TEMPERATURE                                K                          2            0  16 C                         2         4".
Definition b601 : text := cr " 012163 BRIGHTNESS TEMPERATURE                                           K                          2            0  16 C                         2         4".
Definition b602 : text := cr " 012164 INSTRUMENT TEMPERATURE                                           K                          2            0  16 K                         2         5".
Definition b603 : text := cr " 012171 COLDEST CLUSTER TEMPERATURE                                      K                          2            0  16 K                         2         5".
Definition b604 : text := cr " 012180 AVERAGED 12 MICRON BT FOR ALL CLEAR PIXELS AT NADIR              K                          2            0  16 K                         2         5".
Definition b605 : text := cr " 012181 AVERAGED 11 MICRON BT FOR ALL CLEAR PIXELS AT NADIR              K                          2            0  16 K                         2         5".
Definition b606 : text := cr " 012182 AVERAGED 3.7 MICRON BT FOR ALL CLEAR PIXELS AT NADIR             K                          2            0  16 K                         2         5".
Definition b607 : text := cr " 012183 AVERAGED 12 MICRON BT FOR ALL CLEAR PIXELS, FORWARD VIEW         K                          2            0  16 K                         2         5".
Definition b608 : text := cr " 012184 AVERAGED 11 MICRON BT FOR ALL CLEAR PIXELS, FORWARD VIEW         K                          2            0  16 K                         2         5".
Definition b609 : text := cr " 012185 AVERAGED 3.7 MICRON BT FOR ALL CLEAR PIXELS, FORWARD VIEW        K                          2            0  16 K                         2         5".
Definition b610 : text := cr " 012186 MEAN NADIR SEA SURFACE TEMPERATURE                               K                          2            0  16 K                         2         5".
Definition b611 : text := cr " 012187 MEAN DUAL VIEW SEA SURFACE TEMPERATURE                           K                          2            0  16 K                         2         5".
Definition b612 : text := cr " 012188 INTERPOLATED 23.8 GHZ BRIGHTNESS T FROM MWR                      K                          2            0  16 K                         2         5".
Definition b613 : text := cr " 012189 INTERPOLATED 36.5 GHZ BRIGHTNESS T FROM MWR                      K                          2            0  16 K                         2         5".
Definition b614 : text := " 012193 COLDEST CLUSTER TEMPERATURE                                      K                          1            0  12  ".
Definition b615 : text := " 012194 RADIANCE                                                         W/M**2*STER*M**(-1)        6            0  31  ".
Definition b616 : text := " 012195 SPECTRAL RADIANCE                                                W/M**2*STER*M**(-1)       10            0  31  ".
Definition b617 : text := " 012196 RADIANCE                                                         W/M**2*STER                3            0  16  ".
Definition b618 : text := " 012197 MAXIMUM TEMPERATURE AT 2M, PAST  3 HOURS                         K                          1            0  12  ".
Definition b619 : text := " 012198 MINIMUM TEMPERATURE AT 2M, PAST  3 HOURS                         K                          1            0  12  ".
Definition b620 : text := " 012199 MAXIMUM TEMPERATURE AT 2M, PAST  6 HOURS                         K                          1            0  12  ".
Definition b621 : text := " 012200 MINIMUM TEMPERATURE AT 2M, PAST  6 HOURS                         K                          1            0  12  ".
Definition b622 : text := " 013001 SPECIFIC HUMIDITY                                                KG/KG                      5            0  14 KG/KG                     5         5".
Definition b623 : text := " 013002 MIXING RATIO                                                     KG/KG                      5            0  14 KG/KG                     5         5".
Definition b624 : text := " 013003 RELATIVE HUMIDITY                                                %                          0            0   7 %                         0         3".
Definition b625 : text := " 013004 VAPOUR PRESSURE                                                  PA                        -1            0  10 PA                       -1         4".
Definition b626 : text := " 013005 VAPOUR DENSITY                                                   KG/M**3                    3            0   7 KG/M**3                   3         3".
Definition b627 : text := " 013006 MIXING HEIGHTS                                                   M                         -1          -40  16 M                        -1         5".
Definition b628 : text := " 013007 MINIMUM RELATIVE HUMIDITY                                        %                          0            0   7 %                         0         3".
Definition b629 : text := " 013008 MAXIMUM RELATIVE HUMIDITY                                        %                          0            0   7 %                         0         3".
Definition b630 : text := " 013009 RELATIVE HUMIDITY                                                %                          1        -1000  12 %                         1         4".
Definition b631 : text := " 013011 TOTAL PRECIPITATION/TOTAL WATER EQUIVALENT                       KG/M**2                    1           -1  14 KG/M**2                   1         5".
Definition b632 : text := " 013012 DEPTH OF FRESH SNOW                                              M                          2           -2  12 M                         2         4".
Definition b633 : text := " 013013 TOTAL SNOW DEPTH                                                 M                          2           -2  16 M                         2         5".
Definition b634 : text := " 013014 RAINFALL/WATER EQUIVALENT OF SNOW (AVERAGED RATE)                KG/(M**2)S                 4            0  12 KG/(M**2)S                4         4".
Definition b635 : text := " 013015 SNOWFALL  (AVERAGED RATE)                                        M/S                        7            0  12 M/S                       7         4".
Definition b636 : text := " 013016 PRECIPITABLE WATER                                               KG/M**2                    0            0   7 KG/M**2                   0         3".
Definition b637 : text := " 013019 TOTAL PRECIPITATION PAST 1 HOUR                                  KG/M**2                    1           -1  14 KG/M**2                   1         4".
Definition b638 : text := " 013020 TOTAL PRECIPITATION PAST 3 HOURS                                 KG/M**2                    1           -1  14 KG/M**2                   1         5".
Definition b639 : text := " 013021 TOTAL PRECIPITATION PAST 6 HOURS                                 KG/M**2                    1           -1  14 KG/M**2                   1         5".
Definition b640 : text := " 013022 TOTAL PRECIPITATION PAST 12 HOURS                                KG/M**2                    1           -1  14 KG/M**2                   1         5".
Definition b641 : text := " 013023 TOTAL PRECIPITATION PAST 24 HOURS                                KG/M**2                    1           -1  14 KG/M**2                   1         5".
Definition b642 : text := " 013031 EVAPOTRANSPIRATION                                               KG/M**2                    0            0   7 KG/M**2                   0         3".
Definition b643 : text := " 013032 EVAPORATION/EVAPOTRANSPIRATION                                   KG/M**2                    1            0   8 KG/M**2                   1         3".
Definition b644 : text := " 013033 EVAPORATION/EVAPOTRANSPIRATION                                   KG/M**2                    1            0  10 KG/M**2                   1         4".
Definition b645 : text := " 013038 SUPERADIABATIC INDICATOR                                         CODE TABLE 13038           0            0   2 CODE TABLE 13038          0         1".
Definition b646 : text := " 013039 TERRAIN TYPE (ICE/SNOW)                                          CODE TABLE 13039           0            0   3 CODE TABLE 13039          0         1".
Definition b647 : text := " 013040 SURFACE FLAG                                                     CODE TABLE 13040           0            0   4 CODE TABLE 13040          0         2".
Definition b648 : text := " 013041 PASQUILL-GIFFORD STABILITY CATEGORY                              CODE TABLE 13041           0            0   4 CODE TABLE 13041          0         2".
Definition b649 : text := " 013042 PARCEL LIFTED INDEX (TO 500 HPA)                                 K                          0          -20   6 K                         0         2".
Definition b650 : text := " 013043 BEST LIFTED INDEX (TO 500 HPA)                                   K                          0          -20   6 K                         0         2".
Definition b651 : text := " 013044 K INDEX                                                          K                          0          -30   8 K                         0         3".
Definition b652 : text := " 013045 KO INDEX                                                         K                          0          -30   8 K                         0         3".
Definition b653 : text := " 013046 MAXIMUM BUOYANCY                                                 K                          0          -30   8 K                         0         3".
Definition b654 : text := " 013047 MODIFIED SHOWALTER STABILITY INDEX                               K                          0          -60   6 C                         0         2".
Definition b655 : text := " 013051 FREQUENCY GROUP, PRECIPITATION                                   CODE TABLE 13051           0            0   4 CODE TABLE 13051          0         2".
Definition b656 : text := " 013052 HIGHEST DAILY AMOUNT OF PRECIPITATION                            KG/M**2                    1           -1  14 KG/M**2                   1         5".
Definition b657 : text := " 013055 INTENSITY OF PRECIPITATION                                       KG/(M**2)S                 4            0   8 MM H-1                    1         3".
Definition b658 : text := " 013056 CHARACTER AND INTENSITY OF PRECIPITATION                         CODE TABLE 13056           0            0   4 CODE TABLE 13056          0         2".
Definition b659 : text := " 013057 TIME OF BEGINNING OR END OF PRECIPITATION                        CODE TABLE 13057           0            0   4 CODE TABLE 13057          0         2".
Definition b660 : text := " 013058 SIZE OF PRECIPITATING ELEMENT                                    M                          4            0   7 MM                        1         3".
Definition b661 : text := " 013059 NUMBER OF FLASHES (THUNDERSTORM)                                 NUMERIC                    0            0   7 NUMERIC                   0         3".
Definition b662 : text := " 013060 TOTAL ACCUMULATED PRECIPITATION                                  KG/M**2                    1           -1  17 KG/M**2                   1         5".
Definition b663 : text := " 013071 UPSTREAM WATER LEVEL                                             M                          2            0  14 M                         2         5".
Definition b664 : text := " 013072 DOWNSTREAM WATER LEVEL                                           M                          2            0  14 M                         2         4".
Definition b665 : text := " 013073 MAXIMUM WATER LEVEL                                              M                          2            0  14 M                         2         4".
Definition b666 : text := " 013080 WATER PH                                                         pH                         1            0  10 pH                        1         3".
Definition b667 : text := " 013081 WATER CONDUCTIVITY                                               S M-1                      3            0  14 S M-1                     3         4".
Definition b668 : text := " 013082 WATER TEMPERATURE                                                K                          1            0  12 K                         1         4".
Definition b669 : text := " 013083 DISSOLVED OXYGEN                                                 KG/M**3                    6            0  15 KG/M**3                   6         5".
Definition b670 : text := " 013084 TURBIDITY                                                        LUMEN                      0            0  14 LUMEN                     0         4".
Definition b671 : text := " 013085 OXYDATION REDUCTION POTENTIAL (ORP)                              V                          3            0  14 V                         3         4".
Definition b672 : text := " 013090 RADIOMETER WATER VAPOUR CONTENT                                  KG/M**2                    1            0  10 KG/M**2                   1         4".
Definition b673 : text := " 013091 RADIOMETER LIQUID CONTENT                                        KG/M**2                    2            0   8 KG/M**2                   2         3".
Definition b674 : text := " 013093 CLOUD OPTICAL THICKNESS                                          NUMERIC                    0            0   8 NUMERIC                   0         3".
Definition b675 : text := " 013095 TOTAL COLUMN WATER VAPOUR                                        KG/M**2                    4            0  19 KG/M**2                   4         6".
Definition b676 : text := " 013096 MWR WATER VAPOUR CONTENT                                         KG/M**2                    2            0  14 KG/M**2                   2         4".
Definition b677 : text := " 013097 MWR LIQUID WATER CONTENT                                         KG/M**2                    2            0  14 KG/M**2                   2         4".
Definition b678 : text := " 013098 INTEGRATED WATER VAPOUR DENSITY                                  KG/M**2                    8            0  30 KG/M**2                   8        10   ".
Definition b679 : text := " 013193 RELATIVE HUMIDITY                                                %                          0            0   8  ".
Definition b680 : text := " 013194 TOTAL COLUMN WATER                                               KG/M**2                    2            0  11  ".
Definition b681 : text := " 013195 RAIN RATE                                                        KG/M**2HOUR                0            0   5  ".
Definition b682 : text := " 013196 ANTECEDENT PRECIPITATION INDEX                                   KG/M**2                    0            0   7  ".
Definition b683 : text := " 013197 TOTAL COLUMN WATER VAPOUR                                        KG/M**2                    1            0  10  ".
Definition b684 : text := " 013198 RAIN FLAG                                                        CODE TABLE 13198           0            0   3  ".
Definition b685 : text := " 013199 SPECIFIC HUMIDITY AT 2 M                                         KG/KG                      5            0  14  ".
Definition b686 : text := " 013201 CLOUD LIQUID WATER                                               KG/KG                      7            0  14  ".
Definition b687 : text := " 013202 TYPE OF SURFACE                                                  CODE TABLE 13202           0            0   8  ".
Definition b688 : text := " 013203 1D VAR ESTIMATE OF RAIN RATE                                     KG/M**2*HOUR               2            0  12  ".
Definition b689 : text := " 013204 SSMI INDEPENDENT ESTIMATE OF RAIN RATE                           KG/M**2*HOUR               2            0  12  ".
Definition b690 : text := " 013205 CLOUD LIQUID WATER PATH                                          KG/M**2                    4            0  14  ".
Definition b691 : text := " 013206 TOTAL PRECIPITATION ICE CONTENT                                  KG/M**2                    6            0  14  ".
Definition b692 : text := " 013207 TOTAL CLOUD LIQUID WATER                                         KG/M**2                    6            0  14  ".
Definition b693 : text := " 013208 SURFACE RAIN RATE ( INSTANTANEOUS )                              KG/M**2*S                  5            0  17  ".
Definition b694 : text := " 013209 RAIN POSSIBILITY                                                 NUMERIC                    0         -256   9  ".
Definition b695 : text := " 013210 1D VAR CLOUD LIQUID WATER PATH RETRIEVED ERROR(S)                KG/M**2                    4            0  14  ".
Definition b696 : text := " 013211 TOTAL PRECIPITABLE WATER INDIPENDENT ESTIMATE OF ERROR(S)        KG/M**2                    2            0  11  ".
Definition b697 : text := " 013212 CLOUD LIQUID WATER PATH INDIPENDENT ESTIMATE OF ERROR(S)         KG/M**2                    4            0  14  ".
Definition b698 : text := " 013230 CONVECTIVE PRECIPITATION                                         KG/M**2                    1           -1  14  ".
Definition b699 : text := " 013231 LARGE SCALE PRECIPITATION                                        KG/M**2                    1           -1  14  ".
Definition b700 : text := " 013240 AIR DENSITY                                                      KG/M**3                    3            0  10  ".
Definition b701 : text := " 013241 CONVECTIVE AVAILABLE POTENTIAL ENERGY                            J/KG                       1            0  17  ".
Definition b702 : text := cr " 014001 LONG-WAVE RADIATION, INTEGRATED OVER 24 HOURS                    J/M**2                    -3        -2048  12 J/M**2                   -3         4".
Definition b703 : text := cr " 014002 LONG-WAVE RADIATION, INTEGRATED OVER PERIOD SPECIFIED            J/M**2                    -3        -2048  12 J/M**2                   -3         4".
Definition b704 : text := cr " 014003 SHORT-WAVE RADIATION, INTEGRATED OVER 24 HOURS                   J/M**2                    -3        -2048  12 J/M**2                   -3         4".
Definition b705 : text := cr " 014004 SHORT-WAVE RADIATION, INTEGRATED OVER PERIOD SPECIFIED           J/M**2                    -3        -2048  12 J/M**2                   -3         4".
Definition b706 : text := cr " 014011 NET LONG-WAVE RADIATION, INTEGRATED OVER 24 HOURS                J/M**2                    -3        -2048  12 J/M**2                   -3         4".
Definition b707 : text := cr " 014012 NET LONG-WAVE RADIATION, INTEGRATED OVER PERIOD SPECIFIED        J/M**2                    -3        -2048  12 J/M**2                   -3         4".
Definition b708 : text := cr " 014013 NET SHORT-WAVE RADIATION, INTEGRATED OVER 24 HOURS               J/M**2                    -3        -2048  12 J/M**2                   -3         4".
Definition b709 : text := cr " 014014 NET SHORT-WAVE RADIATION, INTEGRATED OVER PERIOD SPECIFIED       J/M**2                    -3        -2048  12 J/M**2                   -3         4".
Definition b710 : text := cr " 014015 NET RADIATION, INTEGRATED OVER 24 HOURS                          J/M**2                    -4       -16384  15 J/M**2                   -4         5".
Definition b711 : text := cr " 014016 NET RADIATION, INTEGRATED OVER PERIOD SPECIFIED                  J/M**2                    -4       -16384  15 J/M**2                   -4         5".
Definition b712 : text := cr " 014017 INSTANTANEOUS LONG-WAVE RADIATION (SEE NOTE 6)                   W/M**2                    -3        -2048  12 W/M**2                   -3         4".
Definition b713 : text := cr " 014018 INSTANTANEOUS SHORT-WAVE RADIATION (SEE NOTE 6)                  W/M**2                    -3        -2048  12 W/M**2                   -3         4".
Definition b714 : text := cr " 014019 SURFACE ALBEDO                                                   %                          0            0   7 %                         0         3".
Definition b715 : text := cr " 014020 GLOBAL SOLAR RADIATION, INTEGRATED OVER 24 HOURS                 J/M**2                    -4            0  15 J/M**2                   -4         5".
Definition b716 : text := cr " 014021 GLOBAL SOLAR RADIATION, INTEGRATED OVER PERIOD SPECIFIED         J/M**2                    -4            0  15 J/M**2                   -4         5".
Definition b717 : text := cr " 014022 DIFFUSE SOLAR RADIATION, INTEGRATED OVER 24 HOURS                J/M**2                    -4            0  15 J/M**2                   -4         5".
Definition b718 : text := cr " 014023 DIFFUSE SOLAR RADIATION, INTEGRATED OVER PERIOD SPECIFIED        J/M**2                    -4            0  15 J/M**2                   -4         5".
Definition b719 : text := cr " 014024 DIRECT SOLAR RADIATION, INTEGRATED OVER 24 HOURS                 J/M**2                    -4            0  15 J/M**2                   -4         5".
Definition b720 : text := cr " 014025 DIRECT SOLAR RADIATION, INTEGRATED OVER PERIOD SPECIFIED         J/M**2                    -4            0  15 J/M**2                   -4         5".
Definition b721 : text := cr " 014026 ALBEDO AT THE TOP OF CLOUDS                                      %                          0            0   7 %                         0         3".
Definition b722 : text := cr " 014027 ALBEDO                                                           %                          0            0   7 %                         0         3".
Definition b723 : text := cr " 014028 GLOBAL SOLAR RADIATION (HIGH ACCURACY), INTEGRATED OVER PERIOD S J/M**2                    -2            0  16 J/M**2                   -2         5".
Definition b724 : text := cr " 014029 DIFFUSE SOLAR RADIATION (HIGH ACCURACY), INTEGRATED OVER PERIOD  J/M**2                    -2            0  16 J/M**2                   -2         5".
Definition b725 : text := cr " 014030 DIRECT SOLAR RADIATION (HIGH ACCURACY), INTEGRATED OVER PERIOD S J/M**2                    -2            0  16 J/M**2                   -2         5".
Definition b726 : text := cr " 014031 TOTAL SUNSHINE                                                   MINUTE                     0            0  11 MINUTE                    0         4".
Definition b727 : text := cr " 014032 TOTAL SUNSHINE                                                   HOUR                       0            0  10 HOUR                      0         4".
Definition b728 : text := cr " 014033 TOTAL SUNSHINE                                                   %                          0            0   9 %                         0         3".
Definition b729 : text := cr " 014034 SUNSHINE OVER PERIOD SPECIFIED                                   MINUTE                     0            0  11 MINUTE                    0         4".
Definition b730 : text := cr " 014042 BI-DIRECTIONAL REFLECTANCE                                       %                          0            0   7 %                         0         3".
Definition b731 : text := cr " 014045 CHANNEL RADIANCE                                                 (W/M**2)*(1/SR)*CM         0            0  11 WM-2SR-1CM-1              0         4".
Definition b732 : text := " 014046 SCALED IASI RADIANCE                                             (W/M**2)*(1/SR)*(1/M)      0        -5000  16 (W/M**2)*(1/SR)*(1/M)     0         5 ".
Definition b733 : text := " 014047 SCALED MEAN AVHRR RADIANCE                                       (W/M**2)*(1/SR)*(1/M)      0            0  31 (W/M**2)*(1/SR)*(1/M)     0        10".
Definition b734 : text := " 014048 SCALED STANDARD DEVIATION RADIANCE                               (W/M**2)*(1/SR)*(1/M)      0            0  31 (W/M**2)*(1/SR)*(1/M)     0        10".
Definition b735 : text := cr " 014050 EMISSIVITY (SEE NOTE 5)                                          %                          1            0  10 %                         1         4".
Definition b736 : text := cr " 014051 DIRECT SOLAR RADIATION INTEGRATED OVER LAST HOUR                 J/M**2                    -3            0  14 JM-2                     -3         4".
Definition b737 : text := cr " 014055 SOLAR ACTIVITY INDEX                                             NUMERIC                    0       -32768  16 NUMERIC                   0         5".
Definition b738 : text := " 014061 (VAL) INSTANTANEOUS LONG-WAVE RADIATION                          W/M**2                     0         -512  10 W/M**2                    0         4".
Definition b739 : text := " 014062 (VAL) INSTANTANEOUS SHORT-WAVE RADIATION                         W/M**2                     0        -2048  12 W/M**2                    0         4".
Definition b740 : text := cr " 015001 TOTAL OZONE                                                      DU                         0            0  10 DU                        0         4".
Definition b741 : text := cr " 015002 AIR MASS (SLANT PATH AT 22 KM)                                   NUMERIC                    2            0  10 NUMERIC                   2         3".
Definition b742 : text := cr " 015003 MEASURED OZONE PARTIAL PRESSURE (SOUNDING)                       PA                         4            0   9 NBAR                      0         3".
Definition b743 : text := cr " 015004 OZONE SOUNDING CORRECTION FACTOR                                 NUMERIC                    3            0  11 NUMERIC                   3         4".
Definition b744 : text := cr " 015005 OZONE P                                                          DU                         0            0  10 DU                        0         3".
Definition b745 : text := cr " 015011 LOG 10 OF INTEGRATED ELECTRON DENSITY                            LOG (1/M2)                 3        14000  13 LOG (M-2)                 3         4".
Definition b746 : text := cr " 015015 MAXIMUM IMAGE SPECTRAL COMPONENT BEFORE NORMALIZATION            NUMERIC                    0            0  31 NUMERIC                   0        10".
Definition b747 : text := cr " 015020 INTEGRATED 03 DENSITY                                            KG/M**2                    8            0  21 KG/M**2                   8         7".
Definition b748 : text := cr " 015025 TYPE OF POLLUTANT                                                CODE TABLE 15025           0            0   4 CODE TABLE 15025          0         2".
Definition b749 : text := cr " 015026 CONCENTRATION OF POLLUTANT                                       MOLMOL-1                   9            0   9 MOLMOL-1                  9         3".
Definition b750 : text := " 015027 CONCENTRATION OF POLLUTANT                                       KG/M3                      9            0  10 KG/M3                     9         4".
Definition b751 : text := " 015030 AEROSOL CONTAMINATION INDEX                                      NUMERIC                    2        -1000  12 NUMERIC                   2         4".
Definition b752 : text := cr " 015031 ATMOSPHERIC PATH DELAY IN SATELLITE SIGNAL                       M                          4        10000  15 M                         4         5".
Definition b753 : text := cr " 015032 ESTIMATED ERROR IN ATMOSPHERIC PATH DELAY                        M                          4            0  10 M                         4         4".
Definition b754 : text := cr " 015033 DIFFERENCE IN PATH DELAYS FOR LIMB VIEWS AT EXTREMES OF SCAN     M                          5       -10000  15 M                         5         5".
Definition b755 : text := cr " 015034 ESTIMATED ERROR IN PATH DELAY DIFFERENCE                         M                          5            0  14 M                         5         5".
Definition b756 : text := cr " 015035 COMPONENT OF ZENITH PATH DELAY DUE TO WATER VAPOUR               M                          4            0  14 M                         4         5".
Definition b757 : text := cr " 015036 ATMOSPHERIC REFRACTIVITY (SEE NOTE 5)                            N-UNITS                    3            0  19 N-UNITS                   3         6".
Definition b758 : text := cr " 015037 BENDING ANGLE                                                    RADIANS                    8      -100000  23 RADIANS                   8         7".
Definition b759 : text := " 015202 INTEGRATED ELECTRON DENSITY                                      1/M**2                     3        13000  12  ".
Definition b760 : text := cr " 019001 TYPE OF SYNOPTIC FEATURE                                         CODE TABLE 19001           0            0   6 CODE TABLE 19001          0         2".
Definition b761 : text := cr " 019002 EFFECTIVE RADIUS OF FEATURE                                      M                         -2            0  12 M                        -2         4".
Definition b762 : text := cr " 019003 WIND SPEED THRESHOLD                                             M/S                        0            0   8 M/S                       0         3".
Definition b763 : text := cr " 019004 EFFECTIVE RADIUS WITH RESPECT TO WIND SPEEDS ABOVE THRESHOLD     M                         -2            0  12 M                        -2         4".
Definition b764 : text := cr " 019005 DIRECTION OF MOTION OF FEATURE                                   DEGREE TRUE                0            0   9 DEGREE TRUE               0         3".
Definition b765 : text := cr " 019006 SPEED OF MOTION OF FEATURE                                       M/S                        2            0  14 M/S                       2         5".
Definition b766 : text := cr " 019007 EFFECTIVE RADIUS OF FEATURE                                      M                         -3            0  12 M                        -3         4".
Definition b767 : text := cr " 019008 VERTICAL EXTENT OF CIRCULATION                                   CODE TABLE 19008           0            0   3 CODE TABLE 19008          0         1".
Definition b768 : text := cr " 019009 EFFECTIVE RADIUS WITH RESPECT TO WIND SPEEDS ABOVE THRESHOLD (LA M                         -3            0  12 M                        -3         4".
Definition b769 : text := cr " 019010 METHOD FOR TRACKING THE CENTRE OF SYNOPTIC FEATURE               CODE TABLE 19010           0            0   4 CODE TABLE 19010          0         2".
Definition b770 : text := " 019100 TIME INTERVAL TO CALCULATE THE MOVEMENT OF THE TROPICAL CYCLONE  CODE TABLE 19100           0            0   4 CODE TABLE 19100          0         2".
Definition b771 : text := " 019101 ACCURACY OF THE POSITION OF THE CENTRE OF THE TROPICAL CYCLONE   CODE TABLE 19101           0            0   4 CODE TABLE 19101          0         2".
Definition b772 : text := " 019102 SHAPE AND DEFINITION OF THE EYE OF THE TROPICAL CYCLONE          CODE TABLE 19102           0            0   3 CODE TABLE 19102          0         1".
Definition b773 : text := " 019103 DIAMETER OF MAJOR AXIS OF THE EYE OF THE TROPICAL CYCLONE        CODE TABLE 19103           0            0   4 CODE TABLE 19103          0         2".
Definition b774 : text := " 019104 CHANGE IN CHARACTER OF THE EYE DURING THE 30 MINUTES             CODE TABLE 19104           0            0   4 CODE TABLE 19104          0         2".
Definition b775 : text := " 019105 DISTANCE BETWEEN THE END OF SPIRAL BAND AND THE CENTRE           CODE TABLE 19105           0            0   4 CODE TABLE 19105          0         2".
Definition b776 : text := " 019106 IDENTIFICATION NUMBER OF TROPICAL CYCLONE                        NUMERIC                    0            0   7 NUMERIC                   0         3".
Definition b777 : text := " 019107 TIME INTERVAL OF THE TROPICAL CYCLONE ANALYSIS                   CODE TABLE 19107           0            0   4 CODE TABLE 19107          0         2".
Definition b778 : text := " 019108 ACCURACY OF GEOGRAPHICAL POSITION OF THE TROPICAL CYCLONE        CODE TABLE 19108           0            0   3 CODE TABLE 19108          0         1".
Definition b779 : text := " 019109 MEAN DIAMETER OF THE OVERCAST CLOUD OF THE TROPICAL CYCLONE      CODE TABLE 19109           0            0   4 CODE TABLE 19109          0         2".
Definition b780 : text := " 019110 APPARENT 24-HOUR CHANGE IN INTENSITY OF TROPICAL CYCLONE         CODE TABLE 19110           0            0   4 CODE TABLE 19110          0         2".
Definition b781 : text := " 019111 CURRENT INTENSITY (CI) NUMBER OF THE TROPICAL CYCLONE            NUMERIC                    1            0   7 NUMERIC                   1         3".
Definition b782 : text := " 019112 DATA TROPICAL (DT) NUMBER OF THE TROPICAL CYCLONE                NUMERIC                    1            0   7 NUMERIC                   1         3".
Definition b783 : text := " 019113 CLOUD PATTERN TYPE OF THE DT- NUMBER                             CODE TABLE 19113           0            0   4 CODE TABLE 19113          0         2".
Definition b784 : text := " 019114 MODEL EXPECTED TROPICAL (MET) NUMBER OF THE TROPICAL CYCLONE     NUMERIC                    1            0   7 NUMERIC                   1         3".
Definition b785 : text := " 019115 TREND OF PAST 24-HOUR CHANGE (+: DEVELOPED, -: WEAKENED)         NUMERIC                    1          -30   6 NUMERIC                   1         2".
Definition b786 : text := " 019116 PATTERN TROPICAL (PT) NUMBER OF THE TROPICAL CYCLONE             NUMERIC                    1            0   7 NUMERIC                   1         3".
Definition b787 : text := " 019117 CLOUD PICTURE TYPE OF THE PT- NUMBER                             CODE TABLE 19117           0            0   3 CODE TABLE 19117          0         1".
Definition b788 : text := " 019118 FINAL TROPICAL (T) NUMBER OF THE TROPICAL CYCLONE                NUMERIC                    1            0   7 NUMERIC                   1         3".
Definition b789 : text := " 019119 TYPE OF THE FINAL T-NUMBER                                       CODE TABLE 19119           0            0   3 CODE TABLE 19119          0         1".
Definition b790 : text := " 019150 TYPHOON INTERNATIONAL COMMON NUMBER (TYPHOON COMMITTEE)          CCITTIA5                   0            0  32 CHARACTER                 0         4".
Definition b791 : text := cr " 020001 HORIZONTAL VISIBILITY                                            M                         -1            0  13 M                        -1         4".
Definition b792 : text := cr " 020002 VERTICAL VISIBILITY                                              M                         -1            0   7 M                        -1         3".
Definition b793 : text := cr " 020003 PRESENT WEATHER (SEE NOTE 1)                                     CODE TABLE 20003           0            0   9 CODE TABLE 20003          0         3".
Definition b794 : text := cr " 020004 PAST WEATHER (1) (SEE NOTE 2)                                    CODE TABLE 20004           0            0   5 CODE TABLE 20004          0         2".
Definition b795 : text := cr " 020005 PAST WEATHER (2) (SEE NOTE 2)                                    CODE TABLE 20005           0            0   5 CODE TABLE 20005          0         2".
Definition b796 : text := cr " 020008 CLOUD DISTRIBUTION FOR AVIATION                                  CODE TABLE 20008           0            0   5 CODE TABLE 20008          0         2".
Definition b797 : text := cr " 020009 GENERAL WEATHER INDICATOR (TAF/METAR)                            CODE TABLE 20009           0            0   4 CODE TABLE 20009          0         2".
Definition b798 : text := cr " 020010 CLOUD COVER (TOTAL)                                              %                          0            0   7 %                         0         3".
Definition b799 : text := cr " 020011 CLOUD AMOUNT                                                     CODE TABLE 20011           0            0   4 CODE TABLE 20011          0         2".
Definition b800 : text := cr " 020012 CLOUD TYPE                                                       CODE TABLE 20012           0            0   6 CODE TABLE 20012          0         2".
Definition b801 : text := cr " 020013 HEIGHT OF BASE OF CLOUD                                          M                         -1          -40  11 M                        -1         4".
Definition b802 : text := cr " 020014 HEIGHT OF TOP OF CLOUD                                           M                         -1          -40  11 M                        -1         4".
Definition b803 : text := cr " 020015 PRESSURE AT BASE OF CLOUD                                        PA                        -1            0  14 PA                       -1         5".
Definition b804 : text := cr " 020016 PRESSURE AT TOP OF CLOUD                                         PA                        -1            0  14 PA                       -1         5".
Definition b805 : text := cr " 020017 CLOUD TOP DESCRIPTION                                            CODE TABLE 20017           0            0   4 CODE TABLE 20017          0         2".
Definition b806 : text := cr " 020018 TENDENCY OF RUNWAY VISUAL RANGE                                  CODE TABLE 20018           0            0   2 CODE TABLE 20018          0         1".
Definition b807 : text := cr " 020019 SIGNIFICANT PRESENT OR FORECAST WEATHER                          CCITTIA5                   0            0  72 CHARACTER                 0         9".
Definition b808 : text := cr " 020020 SIGNIFICANT RECENT WEATHER PHENOMENA                             CCITTIA5                   0            0  32 CHARACTER                 0         4".
Definition b809 : text := cr " 020021 TYPE OF PRECIPITATION                                            FLAG TABLE 20021           0            0  30 FLAG TABLE 20021          0        10".
Definition b810 : text := cr " 020022 CHARACTER OF PRECIPITATION                                       CODE TABLE 20022           0            0   4 CODE TABLE 20022          0         2".
Definition b811 : text := cr " 020023 OTHER WEATHER PHENOMENA                                          FLAG TABLE 20023           0            0  18 FLAG TABLE 20023          0         6".
Definition b812 : text := cr " 020024 INTENSITY OF PHENOMENA                                           CODE TABLE 20024           0            0   3 CODE TABLE 20024          0         1".
Definition b813 : text := cr " 020025 OBSCURATION                                                      FLAG TABLE 20025           0            0  21 FLAG TABLE 20025          0         7".
Definition b814 : text := cr " 020026 CHARACTER OF OBSCURATION                                         CODE TABLE 20026           0            0   4 CODE TABLE 20026          0         2".
Definition b815 : text := cr " 020027 PHENOMENA OCCURRENCE                                             FLAG TABLE 20027           0            0   9 FLAG TABLE 20027          0         3".
Definition b816 : text := cr " 020029 RAIN FLAG                                                        CODE TABLE 20029           0            0   2 CODE TABLE 20029          0         1".
Definition b817 : text := cr " 020031 ICE DEPOSIT (THICKNESS)                                          M                          2            0   7 M                         2         3".
Definition b818 : text := cr " 020032 RATE OF ICE ACCRETION                                            CODE TABLE 20032           0            0   3 CODE TABLE 20032          0         1".
Definition b819 : text := cr " 020033 CAUSE OF ICE ACCRETION                                           FLAG TABLE 20033           0            0   4 FLAG TABLE 20033          0         2".
Definition b820 : text := cr " 020034 SEA ICE CONCENTRATION                                            CODE TABLE 20034           0            0   5 CODE TABLE 20034          0         2".
Definition b821 : text := cr " 020035 AMOUNT AND TYPE OF ICE                                           CODE TABLE 20035           0            0   4 CODE TABLE 20035          0         2".
Definition b822 : text := cr " 020036 ICE SITUATION                                                    CODE TABLE 20036           0            0   5 CODE TABLE 20036          0         2".
Definition b823 : text := cr " 020037 ICE DEVELOPMENT                                                  CODE TABLE 20037           0            0   5 CODE TABLE 20037          0         2".
Definition b824 : text := cr " 020038 BEARING OF ICE EDGE (SEE NOTE 3)                                 DEGREE TRUE                0            0  12 DEGREE TRUE               0         3".
Definition b825 : text := cr " 020039 ICE DISTANCE                                                     M                         -1            0  13 M                        -1         4".
Definition b826 : text := " 020040 EVOLUTION OF DRIFT OF SNOW                                       CODE TABLE 20040           0            0   4 CODE TABLE 20040          0         2".
Definition b827 : text := cr " 020041 AIRFRAME ICING                                                   CODE TABLE 20041           0            0   4 CODE TABLE 20041          0         2".
Definition b828 : text := cr " 020042 AIRFRAME ICING PRESENT                                           CODE TABLE 20042           0            0   2 CODE TABLE 20042          0         1".
Definition b829 : text := cr " 020043 PEAK LIQUID WATER CONTENT                                        KG/M**3                    4            0   7 KG/M**3                   4         2".
Definition b830 : text := cr " 020044 AVERAGE LIQUID WATER CONTENT                                     KG/M**3                    4            0   7 KG/M**3                   4         2".
Definition b831 : text := cr " 020045 SUPERCOOLED LARGE DROPLET (SLD) CONDITIONS                       CODE TABLE 20045           0            0   2 CODE TABLE 20045          0         2".
Definition b832 : text := cr " 020050 CLOUD INDEX                                                      CODE TABLE 20050           0            0   8 CODE TABLE 20050          0         3".
Definition b833 : text := cr " 020051 AMOUNT OF LOW CLOUDS                                             %                          0            0   7 %                         0         3".
Definition b834 : text := cr " 020052 AMOUNT OF MIDDLE CLOUDS                                          %                          0            0   7 %                         0         3".
Definition b835 : text := cr " 020053 AMOUNT OF HIGH CLOUDS                                            %                          0            0   7 %                         0         3".
Definition b836 : text := " 020054 TRUE DIRECTION FROM WHICH CLOUDS ARE MOVING                      DEGREE TRUE                0            0   9 DEGREE TRUE               0         3".
Definition b837 : text := " 020055 STATE OF SKY IN TROPICS                                          CODE TABLE 20055           0            0   4 CODE TABLE 20055          0         2".
Definition b838 : text := cr " 020056 CLOUD PHASE                                                      CODE TABLE 20056           0            0   3 CODE TABLE 20056          0         1".
Definition b839 : text := " 020059 MINIMUM HORIZONTAL VISIBILITY                                    M                         -1            0   9 M                        -1         3".
Definition b840 : text := " 020060 PREVAILING HORIZONTAL VISIBILITY                                 M                         -1            0  10 M                        -1         4".
Definition b841 : text := cr " 020061 RUNWAY VISUAL RANGE (RVR)                                        M                          0            0  12 M                         0         4".
Definition b842 : text := cr " 020062 STATE OF THE GROUND (WITH OR WITHOUT SNOW)                       CODE TABLE 20062           0            0   5 CODE TABLE 20062          0         2".
Definition b843 : text := cr " 020063 SPECIAL PHENOMENA                                                CODE TABLE 20063           0            0  10 CODE TABLE 20063          0         4".
Definition b844 : text := cr " 020065 SNOW COVER (SEE NOTE 4)                                          %                          0            0   7 %                         0         3".
Definition b845 : text := " 020066 MAXIMUM DIAMETER OF HAILSTONES                                   M                          3            0   8 M                         3         3".
Definition b846 : text := " 020067 DIAMETER OF DEPOSIT                                              M                          3            0   9 M                         3         3".
Definition b847 : text := cr " 020070 MINIMUM NUMBER OF ATMOSPHERICS                                   NUMERIC                    0            0   7 NUMERIC                   0         3".
Definition b848 : text := cr " 020071 ACCURACY OF FIX AND RATE OF ATMOSPHERICS                         CODE TABLE 20071           0            0   4 CODE TABLE 20071          0         2".
Definition b849 : text := cr " 020081 CLOUD AMOUNT IN SEGMENT                                          %                          0            0   7 %                         0         3".
Definition b850 : text := cr " 020082 AMOUNT SEGMENT CLOUD FREE                                        %                          0            0   7 %                         0         3".
Definition b851 : text := cr " 020083 AMOUNT OF SEGMENT COVERED BY SCENE                               %                          0            0   7 %                         0         3".
Definition b852 : text := " 020085 GENERAL CONDITION OF RUNWAY                                      CODE TABLE 20085           0            0   4 CODE TABLE 20085          0         1".
Definition b853 : text := " 020086 RANWAY DEPOSITS                                                  CODE TABLE 20086           0            0   4 CODE TABLE 20086          0         1".
Definition b854 : text := " 020087 RUNWAY CONTAMINATION                                             CODE TABLE 20087           0            0   4 CODE TABLE 20087          0         1".
Definition b855 : text := " 020088 DEPTH OF RANWAY DEPOSITS                                         M                          3            0  12 M                         3         4".
Definition b856 : text := " 020089 RUNWAY FRICTION COEFICIENT                                       CODE TABLE 20089           0            0   7 CODE TABLE 20089          0         2".
Definition b857 : text := cr " 020090 SPECIAL CLOUDS                                                   CODE TABLE 20090           0            0   4 CODE TABLE 20090          0         2".
Definition b858 : text := " 020091 VERTICAL VISIBILITY                                              FEET                      -2            0  10 FEET                     -2         3".
Definition b859 : text := " 020092 HEIGHT OF BASE OF CLOUD                                          FEET                      -2            0  10 FEET                     -2         3".
Definition b860 : text := " 020095 ICE PROBABILITY                                                  NUMERIC                    3            0  10 NUMERIC                   3         4".
Definition b861 : text := " 020096 ICE AGE (""A"" PARAMETER)                                          dB                         2        -4096  13 dB                        2         4".
Definition b862 : text := " 020101 LOCUST (ACRIDIAN) NAME                                           CODE TABLE 20101           0            0   4 CODE TABLE 20101          0         2".
Definition b863 : text := " 020102 LOCUST (MATURITY) COLOR                                          CODE TABLE 20102           0            0   4 CODE TABLE 20102          0         2".
Definition b864 : text := " 020103 STAGE OF DEVELOPMENT OF LOCUSTS                                  CODE TABLE 20103           0            0   4 CODE TABLE 20103          0         2".
Definition b865 : text := " 020104 ORGANIZATION STATE OF SWARM OR BAND OF LOCUSTS                   CODE TABLE 20104           0            0   4 CODE TABLE 20104          0         2".
Definition b866 : text := " 020105 SIZE OF SWARM OR BAND OF LOCUSTS AND DURATION OF PASSAGE OF SWARMCODE TABLE 20105           0            0   4 CODE TABLE 20105          0         2".
Definition b867 : text := " 020106 LOCUST POPULATION DENSITY                                        CODE TABLE 20106           0            0   4 CODE TABLE 20106          0         2".
Definition b868 : text := " 020107 DIRECTION OF MOVEMENTS OF LOCUST SWARM                           CODE TABLE 20107           0            0   4 CODE TABLE 20107          0         2".
Definition b869 : text := " 020108 EXTENT OF VEGETATION                                             CODE TABLE 20108           0            0   4 CODE TABLE 20108          0         2".
Definition b870 : text := " 020193 CLOUD AMOUNT IN SEGMENT                                          %                          0            0   7 %                         0         3 ".
Definition b871 : text := " 020194 AMOUNT OF SEGMENT CLOUD FREE                                     %                          0            0   7 %                         0         3 ".
Definition b872 : text := " 020215 PRESSURE AT THE BASE OF CLOUD                                    PA                        -1            0  14 PA                       -1         5 ".
Definition b873 : text := " 020249 SEA-ICE FRACTION                                                 NUMERIC                    2            0   7 NUMERIC                   2         3".
Definition b874 : text := " 020250 CALCULATED SURFACE TYPE                                          CODE TABLE 20250           0            0   5  ".
Definition b875 : text := " 020251 ICE AGE                                                          CODE TABLE 20251           0            0   3  ".
Definition b876 : text := " 020252 ICE EDGE                                                         CODE TABLE 20252           0            0   3  ".
Definition b877 : text := " 020253 SURFACE TYPE                                                     CODE TABLE 20253           0            0   3  ".
Definition b878 : text := " 020254 ICE CONCENTRATION                                                %                          0            0   7  ".
Definition b879 : text := cr " 021001 HORIZONTAL REFLECTIVITY                                          dB                         0          -64   7 dB                        0         3".
Definition b880 : text := cr " 021002 VERTICAL REFLECTIVITY                                            dB                         0          -64   7 dB                        0         3".
Definition b881 : text := cr " 021003 DIFFERENTIAL REFLECTIVITY                                        dB                         1           -5   7 dB                        1         3".
Definition b882 : text := cr " 021005 LINEAR DEPOLARISATION RATIO                                      dB                         0          -65   6 dB                        0         2".
Definition b883 : text := cr " 021006 CIRCULAR DEPOLARISATION RATIO                                    dB                         0          -65   6 dB                        0         2".
Definition b884 : text := cr " 021011 DOPPLER MEAN VELOCITY IN X-DIRECTION                             M/S                        0         -128   8 M/S                       0         3".
Definition b885 : text := cr " 021012 DOPPLER MEAN VELOCITY IN Y-DIRECTION                             M/S                        0         -128   8 M/S                       0         3".
Definition b886 : text := cr " 021013 DOPPLER MEAN VELOCITY IN Z-DIRECTION                             M/S                        0         -128   8 M/S                       0         3".
Definition b887 : text := cr " 021014 DOPPLER MEAN VELOCITY (RADIAL)                                   M/S                        1        -4096  13 M/S                       1         4".
Definition b888 : text := cr " 021017 DOPPLER VELOCITY SPECTRAL WIDTH                                  M/S                        1            0   8 M/S                       1         3".
Definition b889 : text := cr " 021021 ECHO TOPS                                                        M                         -3            0   4 M                        -3         2".
Definition b890 : text := cr " 021030 SIGNAL TO NOISE RATIO                                            dB                         0          -32   8 dB                        0         3".
Definition b891 : text := cr " 021031 VERTICALLY INTEGRATED LIQUID-WATER CONTENT                       KG/M**2                    0            0   7 KG/M**2                   0         3".
Definition b892 : text := cr " 021036 RADAR RAINFALL INTENSITY                                         M/S                        7            0  12 M/S                       7         4".
Definition b893 : text := cr " 021041 BRIGHT-BAND HEIGHT                                               M                         -2            0   8 M                        -2         3".
Definition b894 : text := cr " 021051 SIGNAL POWER ABOVE 1 MW                                          dB                         0         -256   8 dB                        0         3".
Definition b895 : text := cr " 021062 BACKSCATTER                                                      dB                         2        -5000  13 dB                        2         4".
Definition b896 : text := cr " 021063 RADIOMETRIC RESOLUTION (NOISE VALUE)                             %                          1            0  10 %                         1         4".
Definition b897 : text := cr " 021064 CLUTTER NOISE ESTIMATE                                           NUMERIC                    0            0   8 NUMERIC                   0         3".
Definition b898 : text := cr " 021065 MISSING PACKET COUNTER                                           NUMERIC                    0         -127   8 NUMERIC                   0         3".
Definition b899 : text := cr " 021066 WAVE SCATTEROMETER PRODUCT CONFIDENCE DATA                       FLAG TABLE 21066           0            0  12 FLAG TABLE 21066          0         4".
Definition b900 : text := cr " 021067 WIND PRODUCT CONFIDENCE DATA                                     FLAG TABLE 21067           0            0  13 FLAG TABLE 21067          0         5".
Definition b901 : text := cr " 021068 RADAR ALTIMETER PRODUCT CONFIDENCE DATA                          FLAG TABLE 21068           0            0   8 FLAG TABLE 21068          0         3".
Definition b902 : text := cr " 021069 SST PRODUCT CONFIDENCE DATA                                      FLAG TABLE 21069           0            0  10 FLAG TABLE 21069          0         4".
Definition b903 : text := cr " 021070 SST PRODUCT CONFIDENCE DATA (SADIST-2)                           FLAG TABLE 21070           0            0  23 FLAG TABLE 21070          0         6".
Definition b904 : text := cr " 021071 PEAKINESS                                                        NUMERIC                    0            0  16 NUMERIC                   0         5".
Definition b905 : text := cr " 021072 SATELLITE ALTIMETER CALIBRATION STATUS                           FLAG TABLE 21072           0            0   4 FLAG TABLE 21072          0         2".
Definition b906 : text := cr " 021073 SATELLLITE ALTIMETER INSTRUMENT MODE                             FLAG TABLE 21073           0            0   9 FLAG TABLE 21073          0         3".
Definition b907 : text := cr " 021075 IMAGE SPECTRUM INTENSITY                                         NUMERIC                    0            0   8 NUMERIC                   0         3".
Definition b908 : text := cr " 021076 REPRESENTATION OF INTENSITIES                                    CODE TABLE 21076           0            0   3 CODE TABLE 21076          0         1".
Definition b909 : text := cr " 021077 ALTITUDE CORRECTION (IONOSPHERE)                                 M                          3            0  14 M                         3         5".
Definition b910 : text := cr " 021078 ALTITUDE CORRECTION (DRY TROPOSPHERE)                            M                          3            0   9 M                         3         3".
Definition b911 : text := cr " 021079 ALTITUDE CORRECTION (WET TROPOSPHERE)                            M                          3         2000  10 M                         3         4".
Definition b912 : text := cr " 021080 ALTITUDE CORRECTION (CALIBRATION CONSTANT)                       M                          3            0  11 M                         3         4".
Definition b913 : text := cr " 021081 OPEN LOOP CORRECTION (HEIGHT-TIME LOOP)                          M                          3            0  10 M                         3         4".
Definition b914 : text := cr " 021082 OPEN LOOP CORRECTION (AUTO GAIN CONTROL)                         dB                         3        -3000  14 dB                        3         5".
Definition b915 : text := cr " 021083 WARM TARGET CALIBRATION                                          NUMERIC                    0            0  16 NUMERIC                   0         5".
Definition b916 : text := cr " 021084 COLD TARGET CALIBRATION                                          NUMERIC                    0            0  16 NUMERIC                   0         5".
Definition b917 : text := cr " 021085 ATSR SEA SURFACE TEMPERATURE ACROSS- TRACK BAND NUMBER           NUMERIC                    0            0   4 NUMERIC                   0         2".
Definition b918 : text := cr " 021086 NUMBER OF PIXELS IN NADIR ONLY, AVERAGE                          NUMERIC                    0            0   9 NUMERIC                   0         3".
Definition b919 : text := cr " 021087 NUMBER OF PIXELS IN DUAL VIEW, AVERAGE                           NUMERIC                    0            0   9 NUMERIC                   0         3".
Definition b920 : text := " 021088 WET BACKSCATTER                                                  dB                         2        -5000  13 dB                        2         4".
Definition b921 : text := cr " 021091 RADAR SIGNAL DOPPLER SPECTRUM 0TH MOMENT                         dB                         0         -100   8 dB                        0         3".
Definition b922 : text := cr " 021092 RASS SIGNAL DOPPLER SPECTRUM 0TH MOMENT, REFERRING TO RASS SIGNA dB                         0         -100   8 dB                        0         3".
Definition b923 : text := " 021093 Ku BAND PEAKINESS                                                NUMERIC                    3            0  16 NUMERIC                   0         5".
Definition b924 : text := " 021094 S BAND PEAKINESS                                                 NUMERIC                    3            0  16 NUMERIC                   0         5".
Definition b925 : text := cr " 021101 NUMBER OF VECTOR AMBIGUITIES                                     NUMERIC                    0            0   3 NUMERIC                   0         1".
Definition b926 : text := cr " 021102 INDEX OF SELECTED WIND VECTOR                                    NUMERIC                    0            0   3 NUMERIC                   0         1".
Definition b927 : text := cr " 021103 TOTAL NUMBER OF SIGMA-0 MEASUREMENTS                             NUMERIC                    0            0   5 NUMERIC                   0         2".
Definition b928 : text := cr " 021104 LIKELIHOOD COMPUTED FOR SOLUTION                                 NUMERIC                    3       -30000  15 NUMERIC                   3         5".
Definition b929 : text := cr " 021105 NORMALIZED RADAR CROSS-SECTION                                   dB                         2       -10000  14 dB                        2         5".
Definition b930 : text := cr " 021106 KP VARIANCE COEFFICIENT (ALPHA)                                  NUMERIC                    3            0  14 NUMERIC                   3         5".
Definition b931 : text := cr " 021107 KP VARIANCE COEFFICIENT (BETA)                                   NUMERIC                    8            0  16 NUMERIC                   8         5".
Definition b932 : text := cr " 021109 SEAWINDS WIND VECTOR CELL QUALITY                                FLAG TABLE 21109           0            0  17 FLAG TABLE 21109          0         6".
Definition b933 : text := cr " 021110 NUMBER OF INNER-BEAM SIGMA-0 (FORWARD OF SATELLITE)              NUMERIC                    0            0   6 NUMERIC                   0         2".
Definition b934 : text := cr " 021111 NUMBER OF OUTER-BEAM SIGMA-0 (FORWARD OF SATELLITE)              NUMERIC                    0            0   6 NUMERIC                   0         2".
Definition b935 : text := cr " 021112 NUMBER OF INNER-BEAM SIGMA-0 (AFT OF SATELLITE)                  NUMERIC                    0            0   6 NUMERIC                   0         2".
Definition b936 : text := cr " 021113 NUMBER OF OUTER-BEAM SIGMA-0 (AFT OF SATELLITE)                  NUMERIC                    0            0   6 NUMERIC                   0         2".
Definition b937 : text := cr " 021114 KP VARIANCE COEFFICENT (GAMMA)                                   dB                         3      -140000  18 dB                        3         6".
Definition b938 : text := cr " 021115 SEAWINDS SIGMA-0 QUALITY                                         FLAG TABLE 21115           0            0  17 FLAG TABLE 21115          0         6".
Definition b939 : text := cr " 021116 SEAWINDS SIGMA-0 MODE                                            FLAG TABLE 21116           0            0  17 FLAG TABLE 21116          0         6".
Definition b940 : text := cr " 021117 SIGMA-0 VARIANCE QUALITY CONTROL                                 NUMERIC                    2            0  16 NUMERIC                   2         5".
Definition b941 : text := cr " 021118 ATTENUATION CORRECTION ON SIGMA-0                                dB                         2       -10000  14 dB                        2         5".
Definition b942 : text := cr " 021119 WIND SCATTEROMETER GEOPHYSICAL MODEL FUNCTION                    CODE TABLE 21119           0            0   6 CODE TABLE 21119          0         2".
Definition b943 : text := cr " 021120 PROBABILITY OF RAIN                                              NUMERIC                    3            0  10 NUMERIC                   3         4".
Definition b944 : text := cr " 021121 SEAWINDS NOF* RAIN INDEX                                         NUMERIC                    0            0   8 NUMERIC                   0         3".
Definition b945 : text := cr " 021122 ATTENUATION CORRECTION OF SIGMA-0 (FROM TB)                      dB                         2       -10000  14 dB                        2         5".
Definition b946 : text := cr " 021123 SEAWINDS NORMALIZED RADAR CROSS SECTION                          dB                         2       -30000  15 dB                        2         5".
Definition b947 : text := cr " 021128 NUMBER OF VALID POINTS PER SECOND USED TO DERIVE PREVIOUS PARAME NUMERIC                    0            0   8 NUMERIC                   0         3".
Definition b948 : text := cr " 021130 SPECTRUM TOTAL ENERGY                                            NUMERIC                    6            0  28 NUMERIC                   6         9".
Definition b949 : text := cr " 021131 SPECTRUM MAX ENERGY                                              NUMERIC                    6            0  28 NUMERIC                   6         9".
Definition b950 : text := cr " 021132 DIRECTION OF SPECTRUM MAX ON HIGHER RESOLUTION GRID              DEGREE                     3            0  19 DEGREE                    3         6".
Definition b951 : text := cr " 021133 WAVE-LENGTH OF SPECTRUM MAX ON HIGHER RESOLUTION GRID            M                          3            0  29 M                         3         9".
Definition b952 : text := cr " 021134 RANGE RESOLUTION OF CRESS COVARIANCE SPECTRUM                    RAD/M                      3            0  19 RAD/M                     3         6".
Definition b953 : text := cr " 021135 REAL PART OF CROSS SPECTRA POLAR GRID NUMBER OF BINS             NUMERIC                    3      -524288  20 NUMERIC                   3         7".
Definition b954 : text := cr " 021136 IMAGINARY PART OF CROSS SPECTRA POLAR GRID NUMBER OF BINS        NUMERIC                    3      -524288  20 NUMERIC                   3         7".
Definition b955 : text := cr " 021137 KU BAND CORRECTED OCEAN BACKSCATTER COEFFICIENT                  dB                         2       -32768  16 dB                        2         5".
Definition b956 : text := cr " 021138 STD KU BAND CORRECTED OCEAN BACKSCATTER COEFFICIENT              dB                         2       -32768  16 dB                        2         5".
Definition b957 : text := cr " 021139 KU BAND NET INSTRUMENTAL CORRECTION FOR AGC                      dB                         2        -2048  12 dB                        2         4".
Definition b958 : text := cr " 021140 S BAND CORRECTED OCEAN BACKSCATTER COEFFICIENT                   dB                         2       -32768  16 dB                        2         5".
Definition b959 : text := cr " 021141 STD S BAND CORRECTED OCEAN BACKSCATTER COEFFICIENT               dB                         2       -32768  16 dB                        2         5".
Definition b960 : text := cr " 021142 S BAND NET INSTRUMENTAL CORRECTION FOR AGC                       dB                         2        -1024  11 dB                        2         4".
Definition b961 : text := cr " 021143 KU BAND RAIN ATTENUATION                                         dB                         2  -1073741824  31 dB                        2        10".
Definition b962 : text := cr " 021144 ALTIMETER RAIN FLAG                                              FLAG TABLE 21144           0            0   2 FLAG TABLE 21144          0         1".
Definition b963 : text := " 021150 BEAM COLLOCATION                                                 CODE TABLE 21150           0            0   2 CODE TABLE 21150          0         1".
Definition b964 : text := " 021151 ESTIMATED ERROR IN SIGMA0 AT 40DEG INCIDENCE ANGLE               dB                         2            0   9 dB                        2         3".
Definition b965 : text := " 021152 SLOPE AT 40DEG INCIDENCE ANGLE                                   dB/DEG                     2          -80   7 dB/DEG                    2         3".
Definition b966 : text := " 021153 ESTIMATED ERROR IN SLOPE AT 40DEG INCIDENCE ANGLE                dB/DEG                     2          -40   6 dB/DEG                    2         3".
Definition b967 : text := " 021154 SOIL MOISTURE SENSITIVITY                                        dB                         2            0  12 dB                        2         4".
Definition b968 : text := " 021155 WIND VECTOR CELL QUALITY                                         FLAG TABLE 21155           0            0  24 FLAG TABLE 21155          0         8".
Definition b969 : text := " 021156 BACKSCATTER DISTANCE                                             NUMERIC                    1        -4096  13 NUMERIC                   1         4".
Definition b970 : text := " 021157 LOSS PER UNIT LENGTH OF ATMOSPHERE USED                          dB/M                      10            0  22 dB/M                     10         7".
Definition b971 : text := " 021158 ASCAT kp ESTIMATE QUALITY                                        CODE TABLE 21158           0            0   2 CODE TABLE 21158          0         1".
Definition b972 : text := " 021159 ASCAT SIGMA-0 USABILITY                                          CODE TABLE 21159           0            0   2 CODE TABLE 21159          0         1".
Definition b973 : text := " 021160 ASCAT USE OF SYNTHETIC DATA                                      NUMERIC                    3            0  10 NUMERIC                   3         4".
Definition b974 : text := " 021161 ASCAT SYNTHETIC DATA QUALITY                                     NUMERIC                    3            0  10 NUMERIC                   3         4".
Definition b975 : text := " 021162 ASCAT SATELLITE ORBIT AND ATTITUDE QUALITY                       NUMERIC                    3            0  10 NUMERIC                   3         4".
Definition b976 : text := " 021163 ASCAT SOLAR ARRAY REFLECTION CONTAMINATION                       NUMERIC                    3            0  10 NUMERIC                   3         4".
Definition b977 : text := " 021164 ASCAT TELEMETRY PRESENCE AND QUALITY                             NUMERIC                    3            0  10 NUMERIC                   3         4".
Definition b978 : text := " 021165 ASCAT EXTRAPOLATED REFERENCE FUNCTION PRESENCE                   NUMERIC                    3            0  10 NUMERIC                   3         4".
Definition b979 : text := " 021166 ASCAT LAND FRACTION                                              NUMERIC                    3            0  10 NUMERIC                   3         4".
Definition b980 : text := " 021193 NOISE FIGURE                                                     %                          0            0   7  ".
Definition b981 : text := " 021194 BACKGROUND NOISE LEVEL                                           NUMERIC                    0            0   8  ".
Definition b982 : text := " 021195 MISSING PACKET COUNTER                                           NUMERIC                    0         -127   8  ".
Definition b983 : text := " 021196 UWA PRODUCT CONFIDENCE                                           FLAG TABLE 21196           0            0  12  ".
Definition b984 : text := " 021197 UWI PRODUCT CONFIDENCE                                           FLAG TABLE 21197           0            0  12  ".
Definition b985 : text := " 021198 URA PRODUCT CONFIDENCE                                           FLAG TABLE 21198           0            0   8  ".
Definition b986 : text := " 021199 UAT PRODUCT CONFIDENCE                                           FLAG TABLE 21199           0            0   7  ".
Definition b987 : text := " 021200 MWI PRODUCT CONFIDENCE                                           FLAG TABLE 21200           0            0  15  ".
Definition b988 : text := " 021201 PEAKINESS                                                        NUMERIC                    0            0  16  ".
Definition b989 : text := " 021202 ALTIMETER CALIBRATION STATUS                                     FLAG TABLE 21202           0            0   4  ".
Definition b990 : text := " 021203 ALTIMETER INSTRUMENT MODE                                        FLAG TABLE 21203           0            0   9  ".
Definition b991 : text := " 021204 MULTI/SINGLE VIEW DIFFERENCE                                     K                          2         -512  10  ".
Definition b992 : text := " 021205 SPECTRAL INTENSITY                                               NUMERIC                    0            0   8  ".
Definition b993 : text := " 021206 REPRESENTATION OF INTENSITY                                      CODE TABLE 21206           0            0   3  ".
Definition b994 : text := " 021207 ALTITUDE CORRECTION (IONOSPHERE)                                 M                          3            0  14  ".
Definition b995 : text := " 021208 ALTITUDE CORRECTION (DRY TROPOSPHERE)                            M                          3            0   9  ".
Definition b996 : text := " 021209 LTITUDE CORRECTION (WET TROPOSPHERE)                             M                          3         2000  10  ".
Definition b997 : text := " 021210 ALTITUDE CORRECTION (CALIBRATION CONSTANT)                       M                          3            0  11  ".
Definition b998 : text := " 021211 OPEN LOOP CORRECTION (HTL)                                       M                          3            0  10  ".
Definition b999 : text := " 021212 OPEN LOOP CORRECTION (AGC)                                       dB                         3        -3000  14  ".
Definition b1000 : text := " 021213 AMBIGUITY REMOVAL CONFIDENCE                                     %                          0            0   7  ".
Definition b1001 : text := " 021214 UAT QUALITY SUMMARY                                              CODE TABLE 21214           0            0   3  ".
Definition b1002 : text := " 021215 UAT ACROSS-TRACK BAND NO.                                        NUMERIC                    0            0   4  ".
Definition b1003 : text := " 021222 DOPPLER SPECTRUM 0 TH MOMENT (AMPLITUDE)                         dB                         0            0   7  ".
Definition b1004 : text := " 021225 PRESCAT PRODUCT CONFIDENCE                                       FLAG TABLE 21225           0            0   6  ".
Definition b1005 : text := " 021226 BACKSCATER DISTANCE                                              NUMERIC                    1        -4096  13  ".
Definition b1006 : text := " 021230 NUMBER OF VECTOR AMBIGUITIES                                     NUMERIC                    0            0   3  ".
Definition b1007 : text := " 021231 INDEX OF SELECTED WIND VECTOR                                    NUMERIC                    0            0   3  ".
Definition b1008 : text := " 021232 TOTAL NMBER OF SIGMA-0 MEASUREMENTS                              NUMERIC                    0            0   5  ".
Definition b1009 : text := " 021233 NUMBER OF SIGMA-0 USABLE FOR WIND                                NUMERIC                    0            0   5  ".
Definition b1010 : text := " 021234 LIKELIHOOD COMPUTED FOR SOLUTION                                 NUMERIC                    1       -10000  14  ".
Definition b1011 : text := " 021235 WIND VECTOR CELL QUALITY FLAG                                    FLAG TABLE 21235           0            0   3  ".
Definition b1012 : text := " 021236 NUMBER OF FORE-BEAM SIGMA-0                                      NUMERIC                    1            0   6  ".
Definition b1013 : text := " 021237 NUMBER OF MID-BEAM V-POL SIGMA-0                                 NUMERIC                    1            0   6  ".
Definition b1014 : text := " 021238 NUMBER OF MID-BEAM H-POL SIGMA-0                                 NUMERIC                    1            0   6  ".
Definition b1015 : text := " 021239 NUMBER OF AFT-BEAM SIGMA-0                                       NUMERIC                    1            0   6  ".
Definition b1016 : text := " 021240 NORMALIZED RADAR CROSS SECTION                                   NUMERIC                    2       -10000  14  ".
Definition b1017 : text := " 021241 Kp VARIANCE COEFFICIENT (ALPHA)                                  NUMERIC                    5            0  14  ".
Definition b1018 : text := " 021242 Kp VARIANCE COEFFICIENT (BETHA)                                  NUMERIC                    6            0  16  ".
Definition b1019 : text := " 021243 Kp VARIANCE COEFFICIENT (GAMMA)                                  NUMERIC                    6            0  16  ".
Definition b1020 : text := " 021244 SIGMA-0 QUALITY FLAG                                             FLAG TABLE 21244           0            0  15  ".
Definition b1021 : text := cr " 022001 DIRECTION OF WAVES                                               DEGREE TRUE                0            0   9 DEGREE TRUE               0         3".
Definition b1022 : text := cr " 022002 DIRECTION OF WIND WAVES                                          DEGREE TRUE                0            0   9 DEGREE TRUE               0         3".
Definition b1023 : text := cr " 022003 DIRECTION OF SWELL WAVES                                         DEGREE TRUE                0            0   9 DEGREE TRUE               0         3".
Definition b1024 : text := cr " 022004 DIRECTION OF CURRENT                                             DEGREE TRUE                0            0   9 DEGREE TRUE               0         3".
Definition b1025 : text := " 022005 DIRECTION OF SEA SURFACE CURRENT                                 DEGREE TRUE                0            0   9 DEGREE TRUE               0         3".
Definition b1026 : text := cr " 022011 PERIOD OF WAVES                                                  S                          0            0   6 S                         0         2".
Definition b1027 : text := cr " 022012 PERIOD OF WIND WAVES                                             S                          0            0   6 S                         0         2".
Definition b1028 : text := cr " 022013 PERIOD OF SWELL WAVES                                            S                          0            0   6 S                         0         2".
Definition b1029 : text := cr " 022021 HEIGHT OF WAVES                                                  M                          1            0  10 M                         1         4".
Definition b1030 : text := cr " 022022 HEIGHT OF WIND WAVES                                             M                          1            0  10 M                         1         4".
Definition b1031 : text := cr " 022023 HEIGHT OF SWELL WAVES                                            M                          1            0  10 M                         1         4".
Definition b1032 : text := cr " 022025 STANDARD DEVIATION WAVE HEIGHT                                   M                          2            0  10 M                         2         4".
Definition b1033 : text := cr " 022026 STANDARD DEVIATION OF SIGNIFICANT WAVE HEIGHT                    M                          2            0  10 M                         2         4".
Definition b1034 : text := cr " 022031 SPEED OF CURRENT                                                 M/S                        2            0  13 M/S                       2         4".
Definition b1035 : text := " 022032 SPEED OF SEA SURFACE CURRENT                                     M/S                        2            0  13 M/S                       2         4".
Definition b1036 : text := cr " 022035 TIDAL ELEVATION WITH RESPECT TO LOCAL CHART DATUM                M                          2            0  14 M                         2         4".
Definition b1037 : text := cr " 022036 METEOROLOGICAL RESIDUAL TIDAL ELEVATION (SURGE OR OFFSET)        M                          2            0  14 M                         2         4".
Definition b1038 : text := cr " 022037 TIDAL ELEVATION WITH RESPECT TO NATIONAL LAND DATUM              M                          3       -10000  15 M                         3         5".
Definition b1039 : text := cr " 022038 TIDAL ELEVATION WITH RESPECT TO LOCAL CHART DATUM                M                          3       -10000  15 M                         3         5".
Definition b1040 : text := cr " 022039 METEOROLOGICAL RESIDUAL TIDAL ELEVATION (SURGE OR OFFSET)        M                          3        -5000  12 M                         3         4".
Definition b1041 : text := cr " 022040 METEOROLOGICAL RESIDUAL TIDAL ELEVATION (SURGE OR OFFSET)        M                          3        -5000  14 M                         3         5".
Definition b1042 : text := cr " 022041 SEA-SURFACE TEMPERATURE (15-DAY RUNNING MEAN)                    K                          1            0  12 K                         1         4".
Definition b1043 : text := cr " 022042 SEA/WATER TEMPERATURE                                            K                          1            0  12 K                         1         4".
Definition b1044 : text := cr " 022043 SEA/WATER TEMPERATURE                                            K                          2            0  15 K                         2         5".
Definition b1045 : text := cr " 022044 SOUND VELOCITY                                                   M/S                        1            0  14 M/S                       1         5".
Definition b1046 : text := cr " 022045 SEA/WATER TEMPERATURE                                            K                          3            0  19 K                         3         6".
Definition b1047 : text := " 022049 SEA SURFACE TEMPERATURE                                          K                          2            0  15 K                         2         5".
Definition b1048 : text := cr " 022050 STANDARD DEVIATION SEA-SURFACE TEMPERATURE                       K                          2            0   8 K                         2         3".
Definition b1049 : text := cr " 022055 FLOAT CYCLE NUMBER                                               NUMERIC                    0            0  10 NUMERIC                   0         3".
Definition b1050 : text := cr " 022056 DIRECTION OF PROFILE                                             CODE TABLE 22056           0            0   2 CODE TABLE 22056          0         1".
Definition b1051 : text := " 022059 SEA SURFACE SALINITY                                             PART PER THOUSAND          2            0  14 PART PER THOUSAND         2         5".
Definition b1052 : text := cr " 022060 LAGRANGIAN DRIFTER DROGUE STATUS                                 CODE TABLE 22060           0            0   3 CODE TABLE 22060          0         1".
Definition b1053 : text := cr " 022061 STATE OF THE SEA                                                 CODE TABLE 22061           0            0   4 CODE TABLE 22061          0         2".
Definition b1054 : text := cr " 022062 SALINITY                                                         PART PER THOUSAND          2            0  14 PART PER THOUSAND         2         5".
Definition b1055 : text := cr " 022063 TOTAL WATER DEPTH                                                M                          0            0  14 M                         0         5".
Definition b1056 : text := cr " 022064 SALINITY                                                         PART PER THOUSAND          3            0  17 PART PER THOUSAND         3         6".
Definition b1057 : text := cr " 022065 WATER PRESSURE                                                   PA                        -3            0  17 PA                       -3         6".
Definition b1058 : text := cr " 022066 WATER CONDUCTIVITY                                               S M-1                      6            0  26 S M-1                     6         8".
Definition b1059 : text := cr " 022067 INSTRUMENT TYPE FOR WATER TEMPERATURE PROFILE MEASUREMENT        CODE TABLE 22067           0            0  10 CODE TABLE 22067          0         4".
Definition b1060 : text := cr " 022068 WATER TEMPERATURE PROFILE RECORDER TYPES                         CODE TABLE 22068           0            0   7 CODE TABLE 22068          0         3".
Definition b1061 : text := cr " 022069 SPECTRAL WAVE DENSITY                                            M2HZ-1                     3            0  22 M2HZ-1                    3         7".
Definition b1062 : text := cr " 022070 SIGNIFICANT WAVE HEIGHT                                          M                          2            0  13 M                         2         4".
Definition b1063 : text := cr " 022071 SPECTRAL PEAK WAVE PERIOD                                        S                          1            0   9 S                         1         3".
Definition b1064 : text := cr " 022072 SPECTRAL PEAK WAVE LENGTH                                        M                          0            0  13 M                         0         4".
Definition b1065 : text := cr " 022073 MAXIMUM WAVE HEIGHT                                              M                          2            0  13 M                         2         4".
Definition b1066 : text := cr " 022074 AVERAGE WAVE PERIOD                                              S                          1            0   9 S                         1         3".
Definition b1067 : text := cr " 022075 AVERAGE WAVE LENGTH                                              M                          0            0  13 M                         0         4".
Definition b1068 : text := cr " 022076 DIRECTION FROM WHICH DOMINANT WAVES ARE COMING                   DEGREE TRUE                0            0   9 DEGREE TRUE               0         3".
Definition b1069 : text := cr " 022077 DIRECTIONAL SPREAD OF DOMINANT WAVE                              DEGREE                     0            0   9 DEGREE                    0         3".
Definition b1070 : text := cr " 022078 DURATION OF WAVE RECORD                                          S                          0            0  12 S                         0         4".
Definition b1071 : text := cr " 022079 LENGTH OF WAVE RECORD                                            M                          0            0  16 M                         0         5".
Definition b1072 : text := cr " 022080 WAVEBAND CENTRAL FREQUENCY                                       Hz                         3            0  10 Hz                        3         4".
Definition b1073 : text := cr " 022081 WAVEBAND CENTRAL WAVE NUMBER                                     1/M                        5            0  13 1/M                       5         4".
Definition b1074 : text := cr " 022082 MAXIMUM NON-DIRECTIONAL SPECTRAL WAVE DENSITY                    M**2S                      2            0  20 M**2S                     2         7".
Definition b1075 : text := cr " 022083 MAXIMUM NON-DIRECTIONAL SPECTRAL WAVE NUMBER                     M**3                       2            0  20 M**3                      2         7".
Definition b1076 : text := cr " 022084 BAND CONTAINING MAXIMUM NON- DIRECTIONAL SPECTRAL WAVE DENSITY   NUMERIC                    0            0   7 NUMERIC                   0         3".
Definition b1077 : text := cr " 022085 SPECTRAL WAVE DENSITY RATIO                                      NUMERIC                    0            0   7 NUMERIC                   0         3".
Definition b1078 : text := cr " 022086 MEAN DIRECTION FROM WHICH WAVES ARE COMING                       DEGREE TRUE                0            0   9 DEGREE TRUE               0         3".
Definition b1079 : text := cr " 022087 PRINCIPAL DIRECTION FROM WHICH WAVES ARE COMING                  DEGREE TRUE                0            0   9 DEGREE TRUE               0         3".
Definition b1080 : text := cr " 022088 FIRST NORMALIZED POLAR COORDINATE FROM FOURIER COEFFICIENTS      NUMERIC                    2            0   7 NUMERIC                   2         3".
Definition b1081 : text := cr " 022089 SECOND NORMALIZED POLAR COORDINATE FROM FOURIER COEFFICIENTS     NUMERIC                    2            0   7 NUMERIC                   2         3".
Definition b1082 : text := cr " 022090 NON-DIRECTIONAL SPECTRAL ESTIMATE BY WAVE FREQUENCY              M**2S                      2            0  20 M**2S                     2         7".
Definition b1083 : text := cr " 022091 NON-DIRECTIONAL SPECTRAL ESTIMATE BY WAVE NUMBER                 M**3                       2            0  20 M**3                      2         7".
Definition b1084 : text := cr " 022092 DIRECTIONAL SPECTRAL ESTIMATE BY WAVE FREQUENCY                  M**2S/RAD                  2            0  20 M**2S/RAD                 2         7".
Definition b1085 : text := cr " 022093 DIRECTIONAL SPECTRAL ESTIMATE BY WAVE NUMBER                     M**4                       2            0  20 M**4                      2         7".
Definition b1086 : text := cr " 022094 TOTAL NUMBER OF WAVE BANDS                                       NUMERIC                    0            0   7 NUMERIC                   0         3".
Definition b1087 : text := cr " 022095 DIRECTIONAL SPREAD OF INDIVIDUAL WAVES                           DEGREE                     0            0   8 DEGREE                    0         3".
Definition b1088 : text := cr " 022096 SPECTRAL BAND WIDTH                                              1/S                        3            0   4 1/S                       3         2".
Definition b1089 : text := cr " 022097 MEAN WAVELENGTH > 731 M OF IMAGE SPECTRUM AT LOW WAVE NUMBERS    M                          0            0  14 M                         0         5".
Definition b1090 : text := cr " 022098 WAVELENGTH SPREAD (WAVELENGTH > 731 M) AT LOW WAVE NUMBERS       M                          0            0  14 M                         0         5".
Definition b1091 : text := cr " 022099 MEAN DIRECTION AT LOW WAVE NUMBERS (WAVELENGTH > 731 M)          DEGREE TRUE                0            0   9 DEGREE TRUE               0         3".
Definition b1092 : text := cr " 022100 DIRECTION SPREAD AT LOW WAVE NUMBERS(WAVELENGTH > 731 M)         DEGREE                     0            0   9 DEGREE                    0         3".
Definition b1093 : text := cr " 022101 TOTAL ENERGY (WAVELENGTH > 731M) AT LOW WAVE NUMBERS             NUMERIC                    0            0  31 NUMERIC                   0        10".
Definition b1094 : text := cr " 022120 TIDE STATION AUTOMATED WATER LEVEL CHECK                         CODE TABLE 22120           0            0   5 CODE TABLE 22120          0         2".
Definition b1095 : text := cr " 022121 TIDE STATION MANUAL WATER LEVEL CHECK                            CODE TABLE 22121           0            0   5 CODE TABLE 22121          0         2".
Definition b1096 : text := cr " 022122 TIDE STATION AUTOMATED METEOROLOGICAL DATA CHECK                 CODE TABLE 22122           0            0   5 CODE TABLE 22122          0         2".
Definition b1097 : text := cr " 022123 TIDE STATION MANUAL METEOROLOGICAL DATA CHECK                    CODE TABLE 22123           0            0   5 CODE TABLE 22123          0         2".
Definition b1098 : text := cr " 022141 SEA-SURFACE TEMPERATURE (15-DAY RUNNING MEAN)                    K                          2            0  15 K                         2         5".
Definition b1099 : text := cr " 022150 NUMBER OF 18 HZ VALID POINTS FOR KU BAND                         NUMERIC                    0            0  10 NUMERIC                   0         4".
Definition b1100 : text := cr " 022151 KU BAND OCEAN RANGE                                              M                          3            0  31 M                         3        10".
Definition b1101 : text := cr " 022152 STD OF 18 HZ KU BAND OCEAN RANGE                                 M                          3            0  16 M                         3         5".
Definition b1102 : text := cr " 022153 NUMBER OF 18 HZ VALID POINTS FOR S BAND                          NUMERIC                    0            0  10 NUMERIC                   0         4".
Definition b1103 : text := cr " 022154 S BAND OCEAN RANGE                                               M                          3            0  31 M                         3        10".
Definition b1104 : text := cr " 022155 STD OF 18 HZ S BAND OCEAN RANGE                                  M                          3            0  16 M                         3         5".
Definition b1105 : text := cr " 022156 KU BAND SIGNIFICANT WAVE HEIGHT                                  M                          3            0  16 M                         3         5".
Definition b1106 : text := cr " 022157 STD 18HZ KU BAND SIGNIFICANT WAVE HEIGHT                         M                          3            0  16 M                         3         5".
Definition b1107 : text := cr " 022158 S BAND SIGNIFICANT WAVE HEIGHT                                   M                          3            0  16 M                         3         5".
Definition b1108 : text := cr " 022159 STD 18HZ S BAND SIGNIFICANT WAVE HEIGHT                          M                          3            0  16 M                         3         5".
Definition b1109 : text := cr " 022160 NORMALIZED INVERSE WAVE AGE                                      NUMERIC                    6            0  21 NUMERIC                   6         7".
Definition b1110 : text := cr " 022161 WAVE SPECTRA                                                     M**4                       4            0  27 M**4                      4         9".
Definition b1111 : text := " 022193 MEAN WAVENUMBER                                                  1/M                        5            0  15  ".
Definition b1112 : text := " 022194 PEAK WAVENUMBER                                                  1/M                        5            0  15  ".
Definition b1113 : text := " 022195 MEAN WAVE PROPAGATION DIRECTION                                  DEGREE                     1            0  13  ".
Definition b1114 : text := " 022196 PEAK WAVE PROPAGATION DIRECTION                                  DEGREE                     1            0  13  ".
Definition b1115 : text := " 022197 DIRECTION SPREAD                                                 DEGREE                     1            0  13  ".
Definition b1116 : text := " 022198 VARIANCE SPECTRAL DENSITY                                        M**2*S/RAD                 4            0  18  ".
Definition b1117 : text := " 022199 CORRELATION COEFF OF SIMULATED FG AND OBSERVED SAR SPECTRUM      NUMERIC                    4       -10000  15  ".
Definition b1118 : text := " 022200 CORRELATION COEFF OF SIMULATED BF AND OBSERVED SAR SPECTRUM      NUMERIC                    4       -10000  15  ".
Definition b1119 : text := " 022201 CORRELATION COEFF OF OCEAN WAVE FG AND EXTRACTED WAVE SPECTRUM   NUMERIC                    4       -10000  15  ".
Definition b1120 : text := " 022202 ERROR BETWEEN FIRST GUESS AND OBSERVED SAR                       NUMERIC                    5            0  21  ".
Definition b1121 : text := " 022203 ERROR BETWEEN SIMULATED AND OBSERVED SAR                         NUMERIC                    5            0  21  ".
Definition b1122 : text := " 022204 MEAN PERIOD OF WAVES                                             SECOND                     2            0  13  ".
Definition b1123 : text := " 022205 SPECTRAL DENSITY                                                 M**2*S/RAD                 4            0  25  ".
Definition b1124 : text := " 022206 PEAK PERIOD OF WAVES                                             SECOND                     2            0  13  ".
Definition b1125 : text := " 022207 MEAN WAVE PERIOD                                                 S                          1            0  10  ".
Definition b1126 : text := " 022208 PEAK PERIOD OF 1D SPECTRA                                        S                          1            0  10  ".
Definition b1127 : text := " 022209 COEFICIENT OF DRAG WITH WAVES                                    NUMERIC                    6            0  13  ".
Definition b1128 : text := " 022210 MEAN SQUARE SLOPE OF WAVES                                       NUMERIC                    4       -10000  14  ".
Definition b1129 : text := " 022211 COEFICIENT OF DRAG WITH WAVES                                    NUMERIC                    6            0  17  ".
Definition b1130 : text := " 022243 STANDARD DEVIATION SIGNIFICANT WAVE HEIGHT                       M                          2            0  10  ".
Definition b1131 : text := cr " 023001 ACCIDENT EARLY NOTIFICATION   ARTICLE APPLICABLE                 CODE TABLE 23001           0            0   3 CODE TABLE 23001          0         1".
Definition b1132 : text := cr " 023002 ACTIVITY OR FACILITY INVOLVED IN INCIDENT                        CODE TABLE 23002           0            0   5 CODE TABLE 23002          0         2".
Definition b1133 : text := cr " 023003 TYPE OF RELEASE                                                  CODE TABLE 23003           0            0   3 CODE TABLE 23003          0         1".
Definition b1134 : text := cr " 023004 COUNTERMEASURES TAKEN NEAR BORDER                                CODE TABLE 23004           0            0   3 CODE TABLE 23004          0         1".
Definition b1135 : text := cr " 023005 CAUSE OF INCIDENT                                                CODE TABLE 23005           0            0   2 CODE TABLE 23005          0         1".
Definition b1136 : text := cr " 023006 INCIDENT SITUATION                                               CODE TABLE 23006           0            0   3 CODE TABLE 23006          0         1".
Definition b1137 : text := cr " 023007 CHARACTERISTICS OF RELEASE                                       CODE TABLE 23007           0            0   3 CODE TABLE 23007          0         1".
Definition b1138 : text := cr " 023008 STATE OF CURRENT RELEASE                                         CODE TABLE 23008           0            0   2 CODE TABLE 23008          0         1".
Definition b1139 : text := cr " 023009 STATE OF EXPECTED RELEASE                                        CODE TABLE 23009           0            0   2 CODE TABLE 23009          0         1".
Definition b1140 : text := cr " 023016 POSSIBILITY OF SIGNIFICANT CHEMICAL TOXIC HEALTH EFFECT          CODE TABLE 23016           0            0   2 CODE TABLE 23016          0         1".
Definition b1141 : text := cr " 023017 FLOW DISCHARGE OF MAJOR RECIPIENT                                M**3/S                     6            0  20 M**3/S                    6         7".
Definition b1142 : text := cr " 023018 RELEASE BEHAVIOUR OVER TIME                                      CODE TABLE 23018           0            0   3 CODE TABLE 23018          0         1".
Definition b1143 : text := cr " 023019 ACTUAL RELEASE HEIGHT                                            M                          0       -15000  17 M                         0         6".
Definition b1144 : text := cr " 023021 EFFECTIVE RELEASE HEIGHT                                         M                          0       -15000  17 M                         0         6".
Definition b1145 : text := cr " 023022 DISTANCE OF RELEASE POINT OR SITE OF INCIDENT                    M                          0            0  24 M                         0         8".
Definition b1146 : text := cr " 023023 MAIN TRANSPORT SPEED IN THE ATMOSPHERE                           M/S                        1            0  12 M/S                       1         4".
Definition b1147 : text := cr " 023024 MAIN TRANSPORT SPEED IN WATER                                    M/S                        2            0  13 M/S                       2         4".
Definition b1148 : text := cr " 023025 MAIN TRANSPORT SPEED IN GROUND WATER                             M/S                        2            0  13 M/S                       2         4".
Definition b1149 : text := cr " 023027 MAIN TRANSPORT DIRECTION IN THE ATMOSPHERE                       DEGREE TRUE                0            0   9 DEGREE TRUE               0         3".
Definition b1150 : text := cr " 023028 MAIN TRANSPORT DIRECTION IN WATER                                DEGREE TRUE                0            0   9 DEGREE TRUE               0         3".
Definition b1151 : text := cr " 023029 MAIN TRANSPORT DIRECTION IN GROUND WATER                         DEGREE TRUE                0            0   9 DEGREE TRUE               0         3".
Definition b1152 : text := cr " 023031 POSSIBILITY THAT PLUME WILL ENCOUNTER PRECIPITATION IN STATE IN  CODE TABLE 23031           0            0   2 CODE TABLE 23031          0         1".
Definition b1153 : text := cr " 023032 PLUME WILL ENCOUNTER CHANGE IN WIND DIRECTION AND/OR SPEED FLAG  CODE TABLE 23032           0            0   2 CODE TABLE 23032          0         1".
Definition b1154 : text := cr " 024001 ESTIMATE OF AMOUNT OF RADIOACTIVITY RELEASED UP TO SPECIFIED TIM Bq                       -11            0  28 Bq                      -11         9".
Definition b1155 : text := cr " 024002 ESTIMATED MAXIMUM POTENTIAL RELEASE                              Bq                       -11            0  28 Bq                      -11         9".
Definition b1156 : text := cr " 024003 COMPOSITION OF RELEASE                                           CODE TABLE 24003           0            0   5 CODE TABLE 24003          0         2".
Definition b1157 : text := cr " 024004 ELEMENT NAME                                                     CCITTIA5                   0            0  16 CHARACTER                 0         2".
Definition b1158 : text := cr " 024005 ISOTOPE MASS                                                     NUMERIC                    0            0   9 NUMERIC                   0         3".
Definition b1159 : text := cr " 024011 DOSE                                                             mSv                        2            0  32 mSv                       2        10".
Definition b1160 : text := cr " 024012 TRAJECTORY DOSE (DEFINED LOCATION AND EXPECTED TIME OF ARRIVAL)  mSv                        2            0  32 mSv                       2        10".
Definition b1161 : text := cr " 024013 GAMMA DOSE IN AIR ALONG THE MAIN TRANSPORT PATH (DEFINED LOCATIO mSv                        2            0  32 mSv                       2        10".
Definition b1162 : text := cr " 024021 AIR CONCENTRATION (OF NAMED ISOTOPE TYPE INCLUDING GROSS BETA)   Bq/M**3                    2            0  32 Bq/M**3                   2        10".
Definition b1163 : text := cr " 024022 CONCENTRATION IN PRECIPITATION (OF NAMES ISOTOPE TYPE)           Bq/L                       2            0  32 BQ L-1                    2        10".
Definition b1164 : text := cr " 024023 PULSE RATE OF BETA RADIATION                                     1/S                        1            0  14 1/S                       1         4".
Definition b1165 : text := cr " 024024 PULSE RATE OF GAMMA RADIATION                                    1/S                        1            0  14 1/S                       1         4".
Definition b1166 : text := cr " 025001 RANGE-GATE LENGTH                                                M                         -1            0   6 M                        -1         2".
Definition b1167 : text := cr " 025002 NUMBER OF GATES AVERAGED                                         NUMERIC                    0            0   4 NUMERIC                   0         2".
Definition b1168 : text := cr " 025003 NUMBER OF INTEGRATED PULSES                                      NUMERIC                    0            0   8 NUMERIC                   0         3".
Definition b1169 : text := cr " 025004 ECHO PROCESSING                                                  CODE TABLE 25004           0            0   2 CODE TABLE 25004          0         1".
Definition b1170 : text := cr " 025005 ECHO INTEGRATION                                                 CODE TABLE 25005           0            0   2 CODE TABLE 25005          0         1".
Definition b1171 : text := cr " 025006 Z TO R CONVERSION                                                CODE TABLE 25006           0            0   3 CODE TABLE 25006          0         1".
Definition b1172 : text := cr " 025007 Z TO R CONVERSION FACTOR                                         NUMERIC                    0            0  12 NUMERIC                   0         4".
Definition b1173 : text := cr " 025008 Z TO R CONVERSION EXPONENT                                       NUMERIC                    2            0   9 NUMERIC                   2         3".
Definition b1174 : text := cr " 025009 CALIBRATION METHOD                                               FLAG TABLE 25009           0            0   4 FLAG TABLE 25009          0         2".
Definition b1175 : text := cr " 025010 CLUTTER TREATMENT                                                CODE TABLE 25010           0            0   4 CODE TABLE 25010          0         2".
Definition b1176 : text := cr " 025011 GROUND OCCULTATION CORRECTION (SCREENING)                        CODE TABLE 25011           0            0   2 CODE TABLE 25011          0         1".
Definition b1177 : text := cr " 025012 RANGE ATTENUATION CORRECTION                                     CODE TABLE 25012           0            0   2 CODE TABLE 25012          0         1".
Definition b1178 : text := cr " 025013 BRIGHT-BAND CORRECTION                                           FLAG TABLE 25013           0            0   2 FLAG TABLE 25013          0         1".
Definition b1179 : text := cr " 025014 AZIMUTH CLUTTER CUT-OFF (SEE NOTE 1)                             NUMERIC                    0            0  12 NUMERIC                   0         4".
Definition b1180 : text := cr " 025015 RADOME ATTENUATION CORRECTION                                    FLAG TABLE 25015           0            0   2 FLAG TABLE 25015          0         1".
Definition b1181 : text := cr " 025016 CLEAR-AIR ATTENUATION CORRECTION                                 dB/M                       5            0   6 dB/M                      5         2".
Definition b1182 : text := cr " 025017 PRECIPITATION ATTENUATION CORRECTION                             FLAG TABLE 25017           0            0   2 FLAG TABLE 25017          0         1".
Definition b1183 : text := cr " 025018 A TO Z LAW FOR ATTENUATION FACTOR                                NUMERIC                    7            0   6 NUMERIC                   7         2".
Definition b1184 : text := cr " 025019 A TO Z LAW FOR ATTENUATION EXPONENT                              NUMERIC                    2            0   7 NUMERIC                   2         3".
Definition b1185 : text := cr " 025020 MEAN SPEED ESTIMATION                                            CODE TABLE 25020           0            0   2 CODE TABLE 25020          0         1".
Definition b1186 : text := cr " 025021 WIND COMPUTATION ENHANCEMENT                                     FLAG TABLE 25021           0            0   8 FLAG TABLE 25021          0         3".
Definition b1187 : text := cr " 025025 BATTERY VOLTAGE                                                  V                          1            0   9 V                         1         3".
Definition b1188 : text := cr " 025026 BATTERY VOLTAGE (LARGE RANGE)                                    V                          1            0  12 V                         1         4".
Definition b1189 : text := cr " 025028 OPERATOR OR MANUFACTURER DEFINED PARAMETER                       NUMERIC                    1       -16384  15 NUMERIC                   1         5".
Definition b1190 : text := cr " 025030 RUNNING MEAN SEA-SURFACE TEMPERATURE USAGE                       CODE TABLE 25030           0            0   2 CODE TABLE 25030          0         1".
Definition b1191 : text := cr " 025032 WIND PROFILER MODE INFORMATION                                   CODE TABLE 25032           0            0   2 CODE TABLE 25032          0         1".
Definition b1192 : text := cr " 025033 WIND PROFILER SUBMODE INFORMATION*                               CODE TABLE 25033           0            0   2 CODE TABLE 25033          0         1".
Definition b1193 : text := cr " 025034 WIND PROFILER QUALITY CONTROL TEST RESULTS*                      FLAG TABLE 25034           0            0   4 FLAG TABLE 25034          0         2".
Definition b1194 : text := cr " 025036 ATMOSPHERICS LOCATION METHOD                                     CODE TABLE 25036           0            0   4 CODE TABLE 25036          0         2".
Definition b1195 : text := cr " 025040 CO2 WIND PRODUCT DERIVATION                                      CODE TABLE 25040           0            0   4 CODE TABLE 25040          0         2".
Definition b1196 : text := cr " 025041 MOVING PLATFORM DIRECTION REPORTING METHOD                       CODE TABLE 25041           0            0   2 CODE TABLE 25041          0         1".
Definition b1197 : text := cr " 025042 MOVING PLATFORM SPEED REPORTING METHOD                           CODE TABLE 25042           0            0   2 CODE TABLE 25042          0         1".
Definition b1198 : text := cr " 025043 WAVE SAMPLING INTERVAL (TIME)                                    S                          4            0  15 S                         4         5".
Definition b1199 : text := cr " 025044 WAVE SAMPLING INTERVAL (SPACE)                                   M                          2            0  14 M                         2         5".
Definition b1200 : text := cr " 025045 HIRS CHANNEL COMBINATION                                         FLAG TABLE 25045           0            0  21 FLAG TABLE 25045          0         7".
Definition b1201 : text := cr " 025046 MSU CHANNEL COMBINATION                                          FLAG TABLE 25046           0            0   5 FLAG TABLE 25046          0         2".
Definition b1202 : text := cr " 025047 SSU CHANNEL COMBINATION                                          FLAG TABLE 25047           0            0   4 FLAG TABLE 25047          0         2".
Definition b1203 : text := cr " 025048 AMSU-A CHANNEL COMBINATION                                       FLAG TABLE 25048           0            0  16 FLAG TABLE 25048          0         6".
Definition b1204 : text := cr " 025049 AMSU-B CHANNEL COMBINATION                                       FLAG TABLE 25049           0            0   6 FLAG TABLE 25049          0         2".
Definition b1205 : text := cr " 025051 AVHRR CHANNEL COMBINATION                                        FLAG TABLE 25051           0            0   7 FLAG TABLE 25051          0         3".
Definition b1206 : text := cr " 025052 LOG-10 OF PRINCIPAL COMPONENTS NORMALIZED FIT TO DATA            NUMERIC                    4            0  15 NUMERIC                   4         5".
Definition b1207 : text := cr " 025053 OBSERVATION QUALITY                                              FLAG TABLE 25053           0            0  12 FLAG TABLE 25053          0         4".
Definition b1208 : text := cr " 025054 SSMIS SUBFRAME ID NEMBER                                         NUMERIC                    0            0   5 NUMERIC                   0         2".
Definition b1209 : text := cr " 025055 MULTIPLEXER HOUSEKEEPING                                         K                          2            0  16 K                         2         5".
Definition b1210 : text := cr " 025060 SOFTWARE IDENTIFICATION (SEE NOTE 2)                             NUMERIC                    0            0  14 NUMERIC                   0         5".
Definition b1211 : text := cr " 025061 SOFTWARE IDENTIFICATION AND VERSION NUMBER                       CCITTIA5                   0            0  96 CHARACTER                 0        12".
Definition b1212 : text := " 025062 DATABASE IDENTIFICATION                                          NUMERIC                    0            0  14 NUMERIC                   0         5".
Definition b1213 : text := cr " 025065 ORIENTATION CORRECTION (AZIMUTH)                                 DEGREE                     2        -1000  11 DEGREE                    2         4".
Definition b1214 : text := cr " 025066 ORIENTATION CORRECTION (ELEVATION)                               DEGREE                     2        -1000  11 DEGREE                    2         4".
Definition b1215 : text := cr " 025067 RADIOSONDE RELEASE POINT PRESSURE CORRECTION                     PA                         0        -8000  14 PA                        0         4".
Definition b1216 : text := cr " 025068 NUMBER OF ARCHIVE RECOMPUTES                                     NUMERIC                    0            0   7 NUMERIC                   0         3".
Definition b1217 : text := cr " 025069 FLIGHT LEVEL PRESSURE CORRECTIONS                                FLAG TABLE 25069           0            0   8 FLAG TABLE 25069          0         3".
Definition b1218 : text := cr " 025070 MAJOR FRAME COUNT                                                NUMERIC                    0            0   4 NUMERIC                   0         2".
Definition b1219 : text := cr " 025071 FRAME COUNT                                                      NUMERIC                    0            0   5 NUMERIC                   0         2".
Definition b1220 : text := cr " 025075 SATELLITE ANTENNA CORRECTIONS VERSION NUMBER                     NUMERIC                    0            0   5 NUMERIC                   0         2".
Definition b1221 : text := cr " 025076 LOG-10 OF (TEMPERATURE-RADIANCE CENTRAL WAVENUMBER) FOR ATOVS    LOG (1/M)                  8            0  30 LOG (1/M)                 8        10".
Definition b1222 : text := cr " 025077 BANDWIDTH CORRECTION COEFFICIENT 1 FOR ATOVS                     NUMERIC                    5      -100000  18 NUMERIC                   5         7".
Definition b1223 : text := cr " 025078 BANDWIDTH CORRECTION COEFFICIENT 2 FOR ATOVS                     NUMERIC                    5            0  17 NUMERIC                   5         6".
Definition b1224 : text := cr " 025079 ALBEDO-RADIANCE SOLAR FILTERED IRRADIANCE FOR ATOVS              W/M**2                     4            0  24 W/M**2                    4         8".
Definition b1225 : text := cr " 025080 ALBEDO-RADIANCE EQUIVALENT FILTER WIDTH FOR ATOVS                M                         10            0  14 M                        10         5".
Definition b1226 : text := cr " 025085 FRACTION OF CLEAR PIXELS IN HIRS FOV                             NUMERIC                    0            0   7 NUMERIC                   0         3".
Definition b1227 : text := cr " 025086 DEPTH CORRECTION INDICATOR                                       CODE TABLE 25086           0            0   2 CODE TABLE 25086          0         1".
Definition b1228 : text := cr " 025091 STRUCTURE CONSTANT OF THE REFRACTION INDEX (CN2)                 dB                         3       -18192  13 dB                        3         5".
Definition b1229 : text := cr " 025092 ACOUSTIC PROPAGATION VELOCITY                                    M/S                        2        28000  14 M/S                       2         5".
Definition b1230 : text := cr " 025093 RASS COMPUTATION CORRECTION                                      FLAG TABLE 25093           0            0   8 FLAG TABLE 25093          0         3".
Definition b1231 : text := cr " 025095 ALTIMETER STATE FLAG                                             FLAG TABLE 25095           0            0   2 FLAG TABLE 25095          0         1".
Definition b1232 : text := cr " 025096 RADIOMETER STATE FLAG                                            FLAG TABLE 25096           0            0   5 FLAG TABLE 25096          0         2".
Definition b1233 : text := cr " 025097 THREE DIMENSIONAL ERROR ESTIMATE OF THE NAVIGATOR ORBIT          CODE TABLE 25097           0            0   4 CODE TABLE 25097          0         2".
Definition b1234 : text := cr " 025100 XBT/XCTD FALL RATE EQUATION COEFFICIENT A                        NUMERIC                    5            0  20 NUMERIC                   5         6".
Definition b1235 : text := cr " 025101 XBT/XCTD FALL RATE EQUATION COEFFICIENT B                        NUMERIC                    5      -500000  21 NUMERIC                   5         6".
Definition b1236 : text := cr " 025102 NUMBER OF MISSING LINES EXCLUDING DATA GAPS                      NUMERIC                    0            0   8 NUMERIC                   0         3".
Definition b1237 : text := cr " 025103 NUMBER OF DIRECTIONAL BINS                                       NUMERIC                    0            0   8 NUMERIC                   0         3".
Definition b1238 : text := cr " 025104 NUMBER OF WAVE-LENGTH BINS                                       NUMERIC                    0            0   8 NUMERIC                   0         3".
Definition b1239 : text := cr " 025107 FIRST WAVE-LENGTH BIN                                            M                          3            0  29 M                         3         9".
Definition b1240 : text := cr " 025108 LAST WAVE-LENGTH BIN                                             M                          3            0  29 M                         3         9".
Definition b1241 : text := cr " 025111 NUMBER OF INPUT DATA GAPS                                        NUMERIC                    0            0   8 NUMERIC                   0         3".
Definition b1242 : text := cr " 025120 RA2-L2-PROCESSING FLAG                                           CODE TABLE 25120           0            0   2 CODE TABLE 25120          0         1".
Definition b1243 : text := cr " 025121 RA2-L2-PROCESSING QUALITY                                        %                          0            0   7 %                         0         3".
Definition b1244 : text := cr " 025122 HARDWARE CONFIGURATION FOR RF                                    CODE TABLE 25122           0            0   2 CODE TABLE 25122          0         1".
Definition b1245 : text := cr " 025123 HARDWARE CONFIGURATION FOR HPA                                   CODE TABLE 25123           0            0   2 CODE TABLE 25123          0         1".
Definition b1246 : text := cr " 025124 MWR L2 PROCESSING FLAG                                           CODE TABLE 25124           0            0   2 CODE TABLE 25124          0         1".
Definition b1247 : text := cr " 025125 MWR L2-PROCESSING QUALITY                                        %                          0            0   7 %                         0         3".
Definition b1248 : text := cr " 025126 MODEL DRY TROPOSPHERIC CORRECTION                                M                          3       -32768  16 M                         3         5".
Definition b1249 : text := cr " 025127 INVERTED BAROMETER CORRECTION                                    M                          3       -32768  16 M                         3         5".
Definition b1250 : text := cr " 025128 MODEL WET TROPOSPHERIC CORRECTION                                M                          3       -32768  16 M                         3         5".
Definition b1251 : text := cr " 025129 MWR DERIVED WET TROPOSPHERIC CORRECTION                          M                          3       -32768  16 M                         3         5".
Definition b1252 : text := cr " 025130 RA2 IONOSPHERIC CORRECTION ON KU BAND                            M                          3       -32768  16 M                         3         5".
Definition b1253 : text := cr " 025131 IONOSPHERIC CORRECTION FROM DORIS ON KU BAND                     M                          3       -32768  16 M                         3         5".
Definition b1254 : text := cr " 025132 IONOSPHERIC CORRECTION FROM MODEL ON KU BAND                     M                          3       -32768  16 M                         3         5".
Definition b1255 : text := cr " 025133 SEA STATE BIAS CORRECTION ON KU BAND                             M                          3       -32768  16 M                         3         5".
Definition b1256 : text := cr " 025134 RA2 IONOSPHERIC CORRECTION ON S BAND                             M                          3       -32768  16 M                         3         5".
Definition b1257 : text := cr " 025135 IONOSPHERIC CORRECTION FROM DORIS ON S BAND                      M                          3       -32768  16 M                         3         5".
Definition b1258 : text := cr " 025136 IONOSPHERIC CORRECTION FROM MODEL ON S BAND                      M                          3       -32768  16 M                         3         5".
Definition b1259 : text := cr " 025137 SEA STATE BIAS CORRECTION ON S BAND                              M                          3       -32768  16 M                         3         5".
Definition b1260 : text := cr " 025138 AVERAGE SIGNAL TO NOISE RATION                                   NUMERIC                    0        -2048  12 NUMERIC                   0         4".
Definition b1261 : text := " 025140 START CHANNEL                                                    NUMERIC                    0            0  14 NUMERIC                   0         5".
Definition b1262 : text := " 025141 END CHANNEL                                                      NUMERIC                    0            0  14 NUMERIC                   0         5".
Definition b1263 : text := " 025142 CHANNEL SCALE FACTOR                                             NUMERIC                    0            0   6 NUMERIC                   0         2".
Definition b1264 : text := " 025150 SATELLITE INTENSITY ANALYSIS METHOD OF TROPICAL CYCLONE          CODE TABLE 25150           0            0   4 CODE TABLE 25150          2         2".
Definition b1265 : text := " 025193 ATTENUATION CORRECTION ON SIGMA0                                 dB                         3            0  14  ".
Definition b1266 : text := " 025194 MAJOR FRAME COUNT                                                NUMERIC                    0            0   4  ".
Definition b1267 : text := " 025197 ANTENNA CORRECTIONS VERSION NUMBER                               NUMERIC                    0            0   5  ".
Definition b1268 : text := " 025198 LOG (TEMP-RAD CENTRAL WAVE NUMBER)                               1/M                        8            0  30  ".
Definition b1269 : text := " 025199 BANDWIDTH CORRECTION COEFFICIENT 1                               NUMERIC                    4       -10000  15  ".
Definition b1270 : text := " 025200 BANDWIDTH CORRECTION COEFFICIENT 2                               NUMERIC                    5            0  17  ".
Definition b1271 : text := " 025201 ALBEDO-RAD SOLAR FILTERED IRRADIANCE                             NUMERIC                    4            0  24  ".
Definition b1272 : text := " 025202 ALBEDO-RAD EQUIVALENT FILTER WIDTH                               NUMERIC                   10            0  14  ".
Definition b1273 : text := " 025203 SCAN LINE STATUS FLAGS FOR ATOVS                                 FLAG TABLE 25203           0            0  31  ".
Definition b1274 : text := " 025204 SCAN LINE QUALITY FLAGS FOR ATOVS                                FLAG TABLE 25204           0            0  31  ".
Definition b1275 : text := " 025205 CHANNEL QUALITY FLAGS FOR ATOVS                                  FLAG TABLE 25205           0            0  31  ".
Definition b1276 : text := " 025206 FOV QUALITY FLAGS FOR ATOVS                                      FLAG TABLE 25206           0            0  31  ".
Definition b1277 : text := cr " 026001 PRINCIPAL TIME OF DAILY READING IN UTC OF MAXIMUM TEMPERATURE    HOUR                       1            0  12 HOUR                      1         3".
Definition b1278 : text := cr " 026002 PRINCIPAL TIME OF DAILY READING IN UTC OF MINIMUM TEMPERATURE    HOUR                       1            0  12 HOUR                      1         3".
Definition b1279 : text := cr " 026003 TIME DIFFERENCE                                                  MINUTE                     0        -1440  12 MINUTE                    0         4".
Definition b1280 : text := cr " 026010 HOURS INCLUDED                                                   FLAG TABLE 26010           0            0  26 FLAG TABLE 26010          0         9".
Definition b1281 : text := cr " 026020 DURATION OF PRECIPITATION                                        MINUTE                     0            0  11 MINUTE                    0         4".
Definition b1282 : text := " 026193 YEAR                                                             YEAR                       0            0  12  ".
Definition b1283 : text := " 026194 MONTH                                                            MONTH                      0            0   4  ".
Definition b1284 : text := " 026195 DAY                                                              DAY                        0            0   6  ".
Definition b1285 : text := " 026196 HOUR                                                             HOUR                       0            0   5  ".
Definition b1286 : text := " 026197 MINUTE                                                           MINUTE                     0            0   6  ".
Definition b1287 : text := " 026198 SECOND                                                           SECOND                     0            0   6  ".
Definition b1288 : text := " 026200 LOCATION WITHIN ASSIMILATION WINDOW IN TIME                      NUMERIC                    6            0  20  ".
Definition b1289 : text := " 026201 HOURS INCLUDED                                                   FLAG TABLE 26201           0            0  26  ".
Definition b1290 : text := cr " 027001 LATITUDE (HIGH ACCURACY)                                         DEGREE                     5     -9000000  25 DEGREE                    5         7".
Definition b1291 : text := cr " 027002 LATITUDE (COARSE ACCURACY)                                       DEGREE                     2        -9000  15 DEGREE                    2         4".
Definition b1292 : text := cr " 027003 ALTERNATE LATITUDE (COARSE ACCURACY)                             DEGREE                     2        -9000  15 DEGREE                    2         4".
Definition b1293 : text := cr " 027004 ALTERNATE LATITUDE (HIGH ACCURACY)                               DEGREE                     5     -9000000  25 DEGREE                    5         7".
Definition b1294 : text := cr " 027020 SATELLITE LOCATION COUNTER                                       NUMERIC                    0            0  16 NUMERIC                   0         5".
Definition b1295 : text := cr " 027021 SATELLITE SUBLOCATION DIMENSION                                  NUMERIC                    0            0  16 NUMERIC                   0         5".
Definition b1296 : text := cr " 027031 IN DIRECTION OF 0 DEGREES LONGITUDE, DISTANCE FROM THE EARTH'S C M                          2  -1073741824  31 M                         2        10".
Definition b1297 : text := cr " 027080 VIEWING AZIMUTH ANGLE                                            DEGREE TRUE                2            0  16 DEGREE TRUE               0         5".
Definition b1298 : text := " 027193 SOLAR AZIMUTH                                                    DEGREE TRUE                2            0  16  ".
Definition b1299 : text := cr " 028001 LONGITUDE (HIGH ACCURACY)                                        DEGREE                     5    -18000000  26 DEGREE                    5         8".
Definition b1300 : text := cr " 028002 LONGITUDE (COARSE ACCURACY)                                      DEGREE                     2       -18000  16 DEGREE                    2         5".
Definition b1301 : text := cr " 028003 ALTERNATE LONGITUDE (COARSE ACCURACY)                            DEGREE                     2       -18000  16 DEGREE                    2         5".
Definition b1302 : text := cr " 028004 ALTERNATE LONGITUDE (HIGH ACCURACY)                              DEGREE                     5    -18000000  26 DEGREE                    5         8".
Definition b1303 : text := cr " 028031 IN DIRECTION 90 DEGREES EAST, DISTANCE FROM THE EARTH'S CENTRE   M                          2  -1073741824  31 M                         2        10".
Definition b1304 : text := cr " 029001 PROJECTION TYPE                                                  CODE TABLE 29001           0            0   3 CODE TABLE 29001          0         1".
Definition b1305 : text := cr " 029002 CO-ORDINATE GRID TYPE                                            CODE TABLE 29002           0            0   3 CODE TABLE 29002          0         1".
Definition b1306 : text := cr " 030001 PIXEL VALUE (4 BITS)                                             NUMERIC                    0            0   4 NUMERIC                   0         2".
Definition b1307 : text := cr " 030002 PIXEL VALUE (8 BITS)                                             NUMERIC                    0            0   8 NUMERIC                   0         3".
Definition b1308 : text := cr " 030004 PIXEL VALUE (16 BITS)                                            NUMERIC                    0            0  16 NUMERIC                   0         5".
Definition b1309 : text := cr " 030021 NUMBER OF PIXELS PER ROW                                         NUMERIC                    0            0  12 NUMERIC                   0         4".
Definition b1310 : text := cr " 030022 NUMBER OF PIXELS PER COLUMN                                      NUMERIC                    0            0  12 NUMERIC                   0         4".
Definition b1311 : text := cr " 030031 PICTURE TYPE                                                     CODE TABLE 30031           0            0   4 CODE TABLE 30031          0         2".
Definition b1312 : text := cr " 030032 COMBINATION WITH OTHER DATA                                      FLAG TABLE 30032           0            0  16 FLAG TABLE 30032          0         6".
Definition b1313 : text := " 030193 POSITION NUMBER ALONG SCAN                                       NUMERIC                    0            0   8  ".
Definition b1314 : text := " 031000 SHORT DELAYED DESCRIPTOR REPLICATION FACTOR                      NUMERIC                    0            0   1 NUMERIC                   0         1".
Definition b1315 : text := " 031001 DELAYED DESCRIPTOR REPLICATION FACTOR                            NUMERIC                    0            0   8 NUMERIC                   0         3".
Definition b1316 : text := " 031002 EXTENDED DELAYED DESCRIPTOR REPLICATION FACTOR                   NUMERIC                    0            0  16 NUMERIC                   0         5".
Definition b1317 : text := " 031011 DELAYED DESCRIPTOR AND DATA REPETITION FACTOR                    NUMERIC                    0            0   8 NUMERIC                   0         3".
Definition b1318 : text := " 031012 EXTENDED DELAYED DESCRIPTOR AND DATA REPETITION FACTOR           NUMERIC                    0            0  16 NUMERIC                   0         5".
Definition b1319 : text := " 031021 ASSOCIATED FIELD SIGNIFICANCE                                    CODE TABLE 31021           0            0   6 CODE TABLE 31021          0         2".
Definition b1320 : text := " 031031 DATA PRESENT INDICATOR                                           FLAG TABLE 31031           0            0   1 FLAG TABLE 31031          0         1".
Definition b1321 : text := cr " 033002 QUALITY INFORMATION                                              CODE TABLE 33002           0            0   2 CODE TABLE 33002          0         1".
Definition b1322 : text := cr " 033003 QUALITY INFORMATION                                              CODE TABLE 33003           0            0   3 CODE TABLE 33003          0         1".
Definition b1323 : text := cr " 033005 QUALITY INFORMATION (AWS DATA)                                   FLAG TABLE 33005           0            0  30 FLAG TABLE 33005          0        10".
Definition b1324 : text := cr " 033006 INTERNAL MEASUREMENT STATUS INFORMATION (AWS)                    CODE TABLE 33006           0            0   3 CODE TABLE 33006          0         1".
Definition b1325 : text := cr " 033007 PER CENT CONFIDENCE                                              %                          0            0   7 %                         0         3".
Definition b1326 : text := cr " 033015 DATA QUALITY CHECK INDICATOR                                     CODE TABLE 33015           0            0   6 CODE TABLE 33015          0         2".
Definition b1327 : text := cr " 033020 QUALITY CONTROL INDICATION OF FOLLOWING VALUE                    CODE TABLE 33020           0            0   3 CODE TABLE 33020          0         1".
Definition b1328 : text := cr " 033021 QUALITY OF FOLLOWING VALUE                                       CODE TABLE 33021           0            0   2 CODE TABLE 33021          0         1".
Definition b1329 : text := cr " 033022 QUALITY OF BUOY SATELLITE TRANSMISSION                           CODE TABLE 33022           0            0   2 CODE TABLE 33022          0         1".
Definition b1330 : text := cr " 033023 QUALITY OF BUOY LOCATION                                         CODE TABLE 33023           0            0   2 CODE TABLE 33023          0         1".
Definition b1331 : text := cr " 033024 STATION ELEVATION QUALITY MARK (FOR MOBILE STATIONS)             CODE TABLE 33024           0            0   4 CODE TABLE 33024          0         2".
Definition b1332 : text := cr " 033025 ACARS INTERPOLATED VALUES                                        CODE TABLE 33025           0            0   3 CODE TABLE 33025          0         1".
Definition b1333 : text := cr " 033026 MOISTURE QUALITY                                                 CODE TABLE 33026           0            0   6 CODE TABLE 33026          0         2".
Definition b1334 : text := cr " 033027 LOCATION QUALITY CLASS (RANGE OF RADIUS OF 66 % CONFIDENCE)      CODE TABLE 33027           0            0   3 CODE TABLE 33027          0         1".
Definition b1335 : text := cr " 033030 SCAN LINE STATUS FLAGS FOR ATOVS                                 FLAG TABLE 33030           0            0  24 FLAG TABLE 33030          0         8".
Definition b1336 : text := cr " 033031 SCAN LINE QUALITY FLAGS FOR ATOVS                                FLAG TABLE 33031           0            0  24 FLAG TABLE 33031          0         8".
Definition b1337 : text := cr " 033032 CHANNEL QUALITY FLAGS FOR ATOVS                                  FLAG TABLE 33032           0            0  24 FLAG TABLE 33032          0         8".
Definition b1338 : text := cr " 033033 FIELD OF VIEW QUALITY FLAGS FOR ATOVS                            FLAG TABLE 33033           0            0  24 FLAG TABLE 33033          0         8".
Definition b1339 : text := cr " 033035 MANUAL/AUTOMATIC QUALITY CONTROL                                 CODE TABLE 33035           0            0   4 CODE TABLE 33035          0         2".
Definition b1340 : text := cr " 033036 NOMINAL CONFIDENCE THRESHOLD                                     %                          0            0   7 %                         0         3".
Definition b1341 : text := cr " 033037 WIND CORRELATION ERROR                                           FLAG TABLE 33037           0            0  20 FLAG TABLE 33037          0         7".
Definition b1342 : text := cr " 033038 QUALITY FLAGS FOR GROUND-BASED GNSS DATA                         FLAG TABLE 33038           0            0  10 FLAG TABLE 33038          0         4".
Definition b1343 : text := cr " 033039 QUALITY FLAGS FOR RADIO OCCULTATION DATA                         FLAG TABLE 33039           0            0  16 FLAG TABLE 33039          0         6".
Definition b1344 : text := cr " 033040 CONFIDENCE INTERVAL                                              %                          0            0   7 PERCENT                   0         3".
Definition b1345 : text := cr " 033041 ATTRIBUTE OF FOLLOWING VALUE                                     CODE TABLE 33041           0            0   2 CODE TABLE 33041          0         1".
Definition b1346 : text := cr " 033042 TYPE OF LIMIT REPRESENTED BY FOLLOWING VALUE                     CODE TABLE 33042           0            0   3 CODE TABLE 33042          0         1".
Definition b1347 : text := cr " 033043 AST CONFIDENCE                                                   FLAG TABLE 33043           0            0   8 FLAG TABLE 33043          0         3".
Definition b1348 : text := cr " 033044 ASAR QUALITY INFORMATION                                         FLAG TABLE 33044           0            0  15 FLAG TABLE 33044          0         5".
Definition b1349 : text := cr " 033045 PROBABILITY OF FOLLOWING EVENT                                   %                          0            0   7 %                         0         3".
Definition b1350 : text := cr " 033046 CONDITIONAL PROBABILITY OF FOLLOWING EVENT WITH RESPECT TO SPECI %                          0            0   7 %                         0         3".
Definition b1351 : text := cr " 033047 MEASUREMENT CONFIDENCE DATA                                      FLAG TABLE 33047           0            0  31 FLAG TABLE 33047          0        11".
Definition b1352 : text := cr " 033048 CONFIDENCE MEASURE OF SAR INVERSION                              CODE TABLE 33048           0            0   2 CODE TABLE 33048          0         1".
Definition b1353 : text := cr " 033049 CONFIDENCE MEASURE OF WIND RETRIEVAL                             CODE TABLE 33049           0            0   2 CODE TABLE 33049          0         1".
Definition b1354 : text := cr " 033050 GLOBAL GTSPP QUALITY FLAG                                        CODE TABLE 33050           0            0   4 CODE TABLE 33050          0         2".
Definition b1355 : text := cr " 033052 S BAND OCEAN RETRACKING QUALITY                                  FLAG TABLE 33052           0            0  21 FLAG TABLE 33052          0         7".
Definition b1356 : text := cr " 033053 KU BAND OCEAN RETRACKING QUALITY                                 FLAG TABLE 33053           0            0  21 FLAG TABLE 33053          0         7".
Definition b1357 : text := " 033060 GQISFLAGQUAL-INDIVIDUAL IASI-SYSTEM QUALITY FLAG                 CODE TABLE 33060           0            0   2 CODE TABLE 33060          0         1".
Definition b1358 : text := " 033061 GQISQUALINDEX - INDICATOR FOR INSTRUMENT NOISE PERFORMANCE       %                          0            0   7 %                         0         3".
Definition b1359 : text := " 033062 GQISQUALINDEXLOC - INDICATOR FOR GEOMETRIC QUALITY INDEX         %                          0            0   7 %                         0         3".
Definition b1360 : text := " 033063 GQISQUALINDEXRAD - INDICATOR FOR INSTRUMENT NOISE PERFORMANCE    %                          0            0   7 %                         0         3".
Definition b1361 : text := " 033064 GQISQUALINDEXSPECT - INDICATOR FOR INSTRUMENT NOISE PERFORMANCE  %                          0            0   7 %                         0         3".
Definition b1362 : text := " 033065 GQISSYSTECSONDQUAL - OUTPUT OF SYSTEM TEC QUALITY FUNCTION       NUMERIC                    0            0  24 NUMERIC                   0        24".
Definition b1363 : text := " 033066 SBUV TOTAL OZONE QUALITY                                         CODE TABLE 33066           0            0   4 CODE TABLE 33066          0         2".
Definition b1364 : text := " 033067 SBUV PROFILE OZONE QUALITY                                       CODE TABLE 33067           0            0   4 CODE TABLE 33067          0         2".
Definition b1365 : text := " 033193 DATA QUALITY 3 BIT CODE                                          CODE TABLE 33193           0            0   3  ".
Definition b1366 : text := " 033194 DATA QUALITY 2 BIT CODE                                          CODE TABLE 33194           0            0   2  ".
Definition b1367 : text := " 033195 ECMWF SAR QC INDICATOR                                           CODE TABLE 33195           0            0   5  ".
Definition b1368 : text := " 033196 ECMWF WAM QC INDICATOR                                           CODE TABLE 33196           0            0   2  ".
Definition b1369 : text := " 033197 ECMWF SAR INVERSION QC INDICATOR                                 CODE TABLE 33197           0            0   3  ".
Definition b1370 : text := " 033198 MINIMUM COST                                                     NUMERIC                    4            0  14  ".
Definition b1371 : text := " 033199 1D VAR TOTAL PRECIPITABLE WATER RETRIEVED ERROR(S)               KG/M**2                    2            0  11  ".
Definition b1372 : text := " 033200 ANALYSIS REPORT EVENTS                                           FLAG TABLE 33200           0            0  31  ".
Definition b1373 : text := " 033201 ANALYSIS REPORT STATUS EVENT                                     FLAG TABLE 33201           0            0  13  ".
Definition b1374 : text := " 033202 ANALYSIS DATUM EVENT FLAGS (1)                                   FLAG TABLE 33202           0            0  31  ".
Definition b1375 : text := " 033203 ANALYSIS DATUM EVENT FLAGS (2)                                   FLAG TABLE 33203           0            0  11  ".
Definition b1376 : text := " 033204 ANALYSIS DATUM STATUS FLAGS                                      FLAG TABLE 33204           0            0  21  ".
Definition b1377 : text := " 033205 VARIATIONAL ANALYSIS BLACK LIST FLAG                             CODE TABLE 33205           0            0   4  ".
Definition b1378 : text := " 033206 VARIATIONAL ANALYSIS QUALITY CONTROL FLAG                        CODE TABLE 33206           0            0   4  ".
Definition b1379 : text := " 033207 VARIATIONAL ANALYSIS DEPARTURE FLAG                              CODE TABLE 33207           0            0   4  ".
Definition b1380 : text := " 033208 VARIATIONAL ANALYSIS FIRST QUESS CHECK FLAG                      CODE TABLE 33208           0            0   4  ".
Definition b1381 : text := " 033209 VARIATIONAL ANALYSIS FINAL FLAG                                  CODE TABLE 33209           0            0   4  ".
Definition b1382 : text := " 033210 INCREMENTAL VARIATIONAL ANALYSIS UPDATE NUMBER                   NUMERIC                    0            0   7  ".
Definition b1383 : text := " 033211 MINIMISATION SIMULATION NUMBER                                   NUMERIC                    0            0  10  ".
Definition b1384 : text := " 033212 1D VAR ITERATION NUMBER                                          NUMERIC                    0            0  10  ".
Definition b1385 : text := " 033213 1D VAR RADIANCE COST                                             NUMERIC                    1        -1000  11  ".
Definition b1386 : text := " 033214 1D VAR ERROR(S)                                                  FLAG TABLE 33214           0            0  11  ".
Definition b1387 : text := " 033215 DIRECTIONAL SKILL                                                NUMERIC                    1        -4096  13  ".
Definition b1388 : text := " 033216 1D VAR SURFACE TYPE QUALITY CONTROL                              CODE TABLE 33216           0            0   3  ".
Definition b1389 : text := " 033217 1D VAR FAILURE INDICATOR                                         CODE TABLE 33217           0            0   2  ".
Definition b1390 : text := " 033218 1D VAR ESTIMATE OF SCATTERING                                    NUMERIC                    2            0  12  ".
Definition b1391 : text := " 033219 SSMI INDIPENDENT SCATTERING INDEX                                NUMERIC                    2       -50000  16  ".
Definition b1392 : text := " 033220 VARIATIONAL ANALYSIS REPORT EVENTS (1)                           FLAG TABLE 33220           0            0  31  ".
Definition b1393 : text := " 033221 VARIATIONAL ANALYSIS SYNOP EVENTS (2)                            FLAG TABLE 33221           0            0  31  ".
Definition b1394 : text := " 033222 VARIATIONAL ANALYSIS AIREP EVENTS (2)                            FLAG TABLE 33222           0            0  31  ".
Definition b1395 : text := " 033223 VARIATIONAL ANALYSIS SATOB EVENTS (2)                            FLAG TABLE 33223           0            0  31  ".
Definition b1396 : text := " 033224 VARIATIONAL ANALYSIS DRIBU EVENTS (2)                            FLAG TABLE 33224           0            0  31  ".
Definition b1397 : text := " 033225 VARIATIONAL ANALYSIS TEMP EVENTS (2)                             FLAG TABLE 33225           0            0  31  ".
Definition b1398 : text := " 033226 VARIATIONAL ANALYSIS PILOT EVENTS (2)                            FLAG TABLE 33226           0            0  31  ".
Definition b1399 : text := " 033227 VARIATIONAL ANALYSIS SATEM/TOVS EVENTS (2)                       FLAG TABLE 33227           0            0  31  ".
Definition b1400 : text := " 033228 VARIATIONAL ANALYSIS PAOB EVENTS (2)                             FLAG TABLE 33228           0            0  31  ".
Definition b1401 : text := " 033229 VARIATIONAL ANALYSIS SCATTEROMETER EVENTS (2)                    FLAG TABLE 33229           0            0  31  ".
Definition b1402 : text := " 033230 VARIATIONAL ANALYSIS RAW RADIANCES EVENTS (2)                    FLAG TABLE 33230           0            0  31  ".
Definition b1403 : text := " 033231 PRESAT SUMMARY FLAGS                                             FLAG TABLE 33231           0            0   6  ".
Definition b1404 : text := " 033232 REPORT BLACK LIST EVENTS                                         FLAG TABLE 33232           0            0  31  ".
Definition b1405 : text := " 033233 VARIATIONAL ANALYSIS REPORT STATUS                               FLAG TABLE 33233           0            0  31  ".
Definition b1406 : text := " 033234 VARIATIONAL ANALYSIS DATUM STATUS                                FLAG TABLE 33234           0            0  31  ".
Definition b1407 : text := " 033236 VARIATIONAL ANALYSIS DATUM EVENTS (1)                            FLAG TABLE 33236           0            0  31  ".
Definition b1408 : text := " 033237 VARIATIONAL ANALYSIS SYNOP DATUM EVENTS (2)                      FLAG TABLE 33237           0            0  31  ".
Definition b1409 : text := " 033238 VARIATIONAL ANALYSIS AIREP DATUM EVENTS (2)                      FLAG TABLE 33238           0            0  31  ".
Definition b1410 : text := " 033239 VARIATIONAL ANALYSIS SATOB DATUM EVENTS (2)                      FLAG TABLE 33239           0            0  31  ".
Definition b1411 : text := " 033240 VARIATIONAL ANALYSIS DRIBU DATUM EVENTS (2)                      FLAG TABLE 33240           0            0  31  ".
Definition b1412 : text := " 033241 GROSS ERROR PROBABILITY                                          NUMERIC                    3            0  10  ".
Definition b1413 : text := " 033242 GROSS ERROR INDICATOR                                            CODE TABLE 33242           0            0   2  ".
Definition b1414 : text := " 033243 VARIATIONAL ANALYSIS TEMP DATUM EVENTS (2)                       FLAG TABLE 33243           0            0  31  ".
Definition b1415 : text := " 033244 VARIATIONAL ANALYSIS PILOT DATUM EVENTS (2)                      FLAG TABLE 33244           0            0  31  ".
Definition b1416 : text := " 033245 VARIATIONAL ANALYSIS SATEM/TOVS DATUM EVENTS (2)                 FLAG TABLE 33245           0            0  31  ".
Definition b1417 : text := " 033246 VARIATIONAL ANALYSIS PAOB DATUM EVENTS (2)                       FLAG TABLE 33246           0            0  31  ".
Definition b1418 : text := " 033247 VARIATIONAL ANALYSIS SCATTEROMETER DATUM EVENTS (2)              FLAG TABLE 33247           0            0  31  ".
Definition b1419 : text := " 033248 VARIATIONAL ANALYSIS RAW RADIANCES DATUM EVENTS (2)              FLAG TABLE 33248           0            0  31  ".
Definition b1420 : text := " 033249 DATUM BLACK LIST EVENTS                                          FLAG TABLE 33249           0            0  31  ".
Definition b1421 : text := " 033250 PROBABILITY OF GROSS ERROR                                       NUMERIC                    6            0  20  ".
Definition b1422 : text := " 033251 RANGE OF POSSIBLE VALUES                                         NUMERIC                    2            0  14  ".
Definition b1423 : text := " 033252 MANUAL-AUTOMATIC QUALITY CONTROL                                 CODE TABLE 33252           0            0   4  ".
Definition b1424 : text := " 033253 NOMINAL CONFIDENCE THRESHOLD                                     %                          0            0   7  ".
Definition b1425 : text := " 033254 WIND CORRELATION METHOD                                          FLAG TABLE 33254           0            0  20  ".
Definition b1426 : text := cr " 035000 FM AND REGIONAL CODE NUMBER                                      CODE TABLE 35000           0            0  10 CODE TABLE 35000          0         3".
Definition b1427 : text := cr " 035001 TIME-FRAME FOR MONITORING                                        CODE TABLE 35001           0            0   3 CODE TABLE 35001          0         1".
Definition b1428 : text := cr " 035011 NUMBER OF REPORTS ACTUALLY RECEIVED                              NUMERIC                    0            0  14 NUMERIC                   0         4".
Definition b1429 : text := cr " 035021 BULLETIN BEING MONITORED (TTAAII)                                CCITTIA5                   0            0  48 CHARACTER                 0         6".
Definition b1430 : text := cr " 035022 BULLETIN BEING MONITORED (YYGGGG)                                CCITTIA5                   0            0  48 CHARACTER                 0         6".
Definition b1431 : text := cr " 035023 BULLETIN BEING MONITORED (CCCC)                                  CCITTIA5                   0            0  32 CHARACTER                 0         4".
Definition b1432 : text := cr " 035024 BULLETIN BEING MONITORED (BBB)                                   CCITTIA5                   0            0  24 CHARACTER                 0         3".
Definition b1433 : text := cr " 035030 DISCREPANCIES IN THE AVAILABILITY OF EXPECTED DATA               CODE TABLE 35030           0            0   4 CODE TABLE 35030          0         1".
Definition b1434 : text := cr " 035031 QUALIFIER ON MONITORING RESULTS                                  CODE TABLE 35031           0            0   7 CODE TABLE 35031          0         2".
Definition b1435 : text := cr " 035032 CAUSE OF MISSING DATA                                            CODE TABLE 35032           0            0   4 CODE TABLE 35032          0         1".
Definition b1436 : text := cr " 035033 OBSERVATION AND COLLECTION DEFICIENCIES                          CODE TABLE 35033           0            0   7 CODE TABLE 35033          0         2".
Definition b1437 : text := cr " 035034 STATISTICAL TRENDS FOR AVAILABILITY OF DATA (DURING THE SURVEY P CODE TABLE 35034           0            0   3 CODE TABLE 35034          0         1".
Definition b1438 : text := cr " 035035 REASON FOR TERMINATION                                           CODE TABLE 35035           0            0   5 CODE TABLE 35035          0         2".
Definition b1439 : text := " 040001 SURFACE SOIL MOISTURE (MS)                                       %                          1            0  10 %                         1         4".
Definition b1440 : text := " 040002 ESTIMATED ERROR IN SURFACE SOIL MOISTURE                         %                          1            0  10 %                         1         4".
Definition b1441 : text := " 040003 MEAN SURFACE SOIL MOISTURE                                       NUMERIC                    3            0  10 NUMERIC                   3         4".
Definition b1442 : text := " 040004 RAIN FALL DETECTION                                              NUMERIC                    3            0  10 NUMERIC                   3         4".
Definition b1443 : text := " 040005 SOIL MOISTURE CORRECTION FLAG                                    FLAG TABLE 40005           0            0   8 FLAG FLAG TABLE 40005     0         3".
Definition b1444 : text := " 040006 SOIL MOISTURE PROCESSING FLAG                                    FLAG TABLE 40006           0            0  16 FLAG FLAG TABLE 40006     0         5".
Definition b1445 : text := " 040007 SOIL MOISTURE QUALITY                                            %                          1            0  10 %                         1         4".
Definition b1446 : text := " 040008 FROZEN LAND SURFACE FRACTION                                     %                          1            0  10 %                         1         4".
Definition b1447 : text := " 040009 INUNDATION AND WETLAND FRACTION                                  %                          1            0  10 %                         1         4".
Definition b1448 : text := " 040010 TOPOGRAPHIC COMPLEXITY                                           %                          1            0  10 %                         1         4".
Definition b1449 : text := " 049193 SAR INVERSION QC FLAGS                                           FLAG TABLE 49193           0            0  15  ".
Definition b1450 : text := " 049194 ALTIMETER WAVE HEIGHT QC FLAFS                                   FLAG TABLE 49194           0            0  15  ".
Definition b1451 : text := " 000001 TABLE A:  ENTRY                                                  CCITTIA5                   0            0  24 CHARACTER                 0         3".
Definition b1452 : text := " 000002 TABLE A:  DATA CATEGORY DESCRIPTION, LINE 1                      CCITTIA5                   0            0 256 CHARACTER                 0        32".
Definition b1453 : text := " 000003 TABLE A:  DATA CATEGORY DESCRIPTION, LINE 2                      CCITTIA5                   0            0 256 CHARACTER                 0        32".
Definition b1454 : text := " 000005 BUFR/CREX EDITION NUMBER                                         CCITTIA5                   0            0  24 CHARACTER                 0         3".
Definition b1455 : text := " 000006 BUFR MASTER TABLE VERSION NUMBER                                 CCITTIA5                   0            0  16 CHARACTER                 0         2".
Definition b1456 : text := " 000010 F DESCRIPTOR TO BE ADDED OR DEFINED                              CCITTIA5                   0            0   8 CHARACTER                 0         1".
Definition b1457 : text := " 000011 X DESCRIPTOR TO BE ADDED OR DEFINED                              CCITTIA5                   0            0  16 CHARACTER                 0         2".
Definition b1458 : text := " 000012 Y DESCRIPTOR TO BE ADDED OR DEFINED                              CCITTIA5                   0            0  24 CHARACTER                 0         3".
Definition b1459 : text := " 000013 ELEMENT NAME, LINE 1                                             CCITTIA5                   0            0 256 CHARACTER                 0        32".
Definition b1460 : text := " 000014 ELEMENT NAME, LINE 2                                             CCITTIA5                   0            0 256 CHARACTER                 0        32".
Definition b1461 : text := " 000015 UNITS NAME                                                       CCITTIA5                   0            0 192 CHARACTER                 0        24".
Definition b1462 : text := " 000016 UNITS SCALE SIGN                                                 CCITTIA5                   0            0   8 CHARACTER                 0         1".
Definition b1463 : text := " 000017 UNITS SCALE                                                      CCITTIA5                   0            0  24 CHARACTER                 0         3".
Definition b1464 : text := " 000018 UNITS REFERENCE SIGN                                             CCITTIA5                   0            0   8 CHARACTER                 0         1".
Definition b1465 : text := " 000019 UNITS REFERENCE VALUE                                            CCITTIA5                   0            0  80 CHARACTER                 0        10".
Definition b1466 : text := " 000020 ELEMENT DATA WIDTH                                               CCITTIA5                   0            0  24 CHARACTER                 0         3".
Definition b1467 : text := " 000030 DESCRIPTOR DEFINING SEQUENCE                                     CCITTIA5                   0            0  48 CHARACTER                 0         6".
Definition b1468 : text := " 001001 WMO BLOCK NUMBER                                                 NUMERIC                    0            0   7 NUMERIC                   0         2".
Definition b1469 : text := " 001002 WMO STATION NUMBER                                               NUMERIC                    0            0  10 NUMERIC                   0         3".
Definition b1470 : text := " 001003 WMO REGION NUMBER/GEOGRAPHICAL AREA                              CODE TABLE 1003            0            0   3 CODE TABLE 1003           0         1".
Definition b1471 : text := " 001004 WMO REGION SUB-AREA (SEE NOTE 9)                                 NUMERIC                    0            0   3 NUMERIC                   0         1".
Definition b1472 : text := " 001005 BUOY/PLATFORM IDENTIFIER                                         NUMERIC                    0            0  17 NUMERIC                   0         5".
Definition b1473 : text := " 001006 AIRCRAFT FLIGHT NUMBER                                           CCITTIA5                   0            0  64 CHARACTER                 0         8".
Definition b1474 : text := " 001007 SATELLITE IDENTIFIER                                             CODE TABLE 1007            0            0  10 CODE TABLE 1007           0         4".
Definition b1475 : text := " 001008 AIRCRAFT REGISTRATION NUMBER OR OTHER IDENTIFICATION             CCITTIA5                   0            0  64 CHARACTER                 0         8".
Definition b1476 : text := " 001009 TYPE OF COMMERCIAL AIRCRAFT                                      CCITTIA5                   0            0  64 CHARACTER                 0         8".
Definition b1477 : text := " 001010 STATIONARY BUOY PLATFORM IDENTIFIER; E.G. C-MAN BUOYS            CCITTIA5                   0            0  64 CHARACTER                 0         8".
Definition b1478 : text := " 001011 SHIP OR MOBILE LAND STATION IDENTIFIER                           CCITTIA5                   0            0  72 CHARACTER                 0         9".
Definition b1479 : text := " 001012 DIRECTION OF MOTION OF MOVING OBSERVING PLATFORM**               DEGREE TRUE                0            0   9 DEGREE TRUE               0         3".
Definition b1480 : text := " 001013 SPEED OF MOTION OF MOVING OBSERVING PLATFORM*                    M/S                        0            0  10 M/S                       0         3".
Definition b1481 : text := " 001014 PLATFORM DRIFT SPEED (HIGH PRECISION)                            M/S                        2            0  10 M/S                       2         4".
Definition b1482 : text := " 001015 STATION OR SITE NAME                                             CCITTIA5                   0            0 160 CHARACTER                 0        20".
Definition b1483 : text := " 001018 SHORT STATION OR SITE NAME                                       CCITTIA5                   0            0  40 CHARACTER                 0         5".
Definition b1484 : text := " 001019 LONG STATION OR SITE NAME                                        CCITTIA5                   0            0 256 CHARACTER                 0        32".
Definition b1485 : text := " 001020 WMO REGION SUB-AREA                                              NUMERIC                    0            0   4 NUMERIC                   0         2".
Definition b1486 : text := " 001021 SYNOPTIC FEATURE IDENTIFIER                                      NUMERIC                    0            0  14 NUMERIC                   0         4".
Definition b1487 : text := " 001022 NAME OF FEATURE (SEE NOTE 11)                                    CCITTIA5                   0            0 224 CHARACTER                 0        28".
Definition b1488 : text := " 001023 OBSERVATION SEQUENCE NUMBER                                      NUMERIC                    0            0   9 NUMERIC                   0         3".
Definition b1489 : text := " 001025 STORM IDENTIFIER                                                 CCITTIA5                   0            0  24 CHARACTER                 0         3".
Definition b1490 : text := " 001026 WMO STORM NAME                                                   CCITTIA5                   0            0  64 CHARACTER                 0         8".
Definition b1491 : text := " 001027 WMO LONG STORM NAME                                              CCITTIA5                   0            0  80 CHARACTER                 0        10".
Definition b1492 : text := " 001031 IDENTIFICATION OF ORIGINATING/GENERATING CENTRE (SEE NOTE 10)    CODE TABLE 1031            0            0  16 CODE TABLE 1031           0         5".
Definition b1493 : text := " 001032 GENERATING APPLICATION                                           CODE TABLE 1032            0            0   8 CODE TABLE 1032           0         3".
Definition b1494 : text := " 001033 IDENTIFICATION OF ORIGINATING/GENERATING CENTRE                  CODE TABLE 1033            0            0   8 CODE TABLE 1033           0         3".
Definition b1495 : text := " 001034 IDENTIFICATION OF ORIGINATING/GENERATING SUB-CENTRE              CODE TABLE 1034            0            0   8 CODE TABLE 1034           0         3".
Definition b1496 : text := " 001035 ORIGINATING CENTRE                                               COMMON CODE TABLE C-11     0            0  16 COMMON CODE TABLE C-11    0         5".
Definition b1497 : text := " 001036 AGENCY IN CHARGE OF OPERATING THE OBSERVING PLATFORM             CODE TABLE 1036            0            0  20 CODE TABLE 1036           0         7".
Definition b1498 : text := " 001041 ABSOLUTE PLATFORM VELOCITY - FIRST COMPONENT (SEE NOTE 6)        M/S                        5  -1073741824  31 M/S                       5        10".
Definition b1499 : text := " 001042 ABSOLUTE PLATFORM VELOCITY - SECOND COMPONENT (SEE NOTE 6)       M/S                        5  -1073741824  31 M/S                       5        10".
Definition b1500 : text := " 001043 ABSOLUTE PLATFORM VELOCITY - THIRD COMPONENT (SEE NOTE 6)        M/S                        5  -1073741824  31 M/S                       5        10".
Definition b1501 : text := " 001050 PLATFORM TRANSMITTER ID NUMBER                                   NUMERIC                    0            0  17 NUMERIC                   0         6".
Definition b1502 : text := " 001051 PLATFORM TRANSMITTER ID NUMBER                                   CCITTIA5                   0            0  96 CHARACTER                 0        12".
Definition b1503 : text := " 001060 AIRCRAFT REPORTING POINT (BEACON IDENTIFIER)                     CCITTIA5                   0            0  64 CHARACTER                 0         8".
Definition b1504 : text := " 001062 SHORT ICAO LOCATION INDICATOR                                    CCITTIA5                   0            0  32 CHARACTER                 0         4".
Definition b1505 : text := " 001063 ICAO LOCATION INDICATOR                                          CCITTIA5                   0            0  64 CHARACTER                 0         8".
Definition b1506 : text := " 001064 RUNWAY DESIGNATOR                                                CCITTIA5                   0            0  32 CHARACTER                 0         4".
Definition b1507 : text := " 001075 TIDE STATION IDENTIFICATION                                      CCITTIA5                   0            0  40 CHARACTER                 0         5".
Definition b1508 : text := " 001080 SHIP LINE NUMBER ACCORDING TO SOOP                               CCITTIA5                   0            0  32 CHARACTER                 0         4".
Definition b1509 : text := " 001081 RADIOSONDE SERIAL NUMBER                                         CCITTIA5                   0            0 160 CHARACTER                 0        20".
Definition b1510 : text := " 001082 RADIOSONDE ASCENSION NUMBER (SEE NOTE 12)                        NUMERIC                    0            0  14 NUMERIC                   0         4".
Definition b1511 : text := " 001083 RADIOSONDE RELEASE NUMBER (SEE NOTE 12)                          NUMERIC                    0            0   3 NUMERIC                   0         1".
Definition b1512 : text := " 001085 OBSERVING PLATFORM MANUFACTURER'S MODEL                          CCITTIA5                   0            0 160 CHARACTER                 0        20".
Definition b1513 : text := " 001086 OBSERVING PLATFORM MANUFACTURER'S SERIAL NUMBER                  CCITTIA5                   0            0 256 CHARACTER                 0        32".
Definition b1514 : text := " 001090 TECHNIQUE FOR MAKING UP INITIAL PERTURBATIONS                    CODE TABLE 1090            0            0   8 CODE TABLE 1090           0         3".
Definition b1515 : text := " 001091 ENSEMBLE MEMBER NUMBER                                           NUMERIC                    0            0  10 NUMERIC                   0         4".
Definition b1516 : text := " 001092 TYPE OF ENSEMBLE FORECAST                                        CODE TABLE 1092            0            0   8 CODE TABLE 1092           0         3".
Definition b1517 : text := " 001093 BALLOON LOT NUMBER                                               CCITTIA5                   0            0  96 CHARACTER                 0        12".
Definition b1518 : text := " 001094 WBAN NUMBER                                                      NUMERIC                    0            0  17 NUMERIC                   0         5".
Definition b1519 : text := " 001095 OBSERVER IDENTIFICATION                                          CCITTIA5                   0            0  32 CHARACTER                 0         4".
Definition b1520 : text := " 001096 STATION ACQUISITION                                              CCITTIA5                   0            0 160 CHARACTER                 0        20".
Definition b1521 : text := " 001193 SIGMA_0 SIMULATION METHOD                                        CODE TABLE 1193            0            0   4 ".
Definition b1522 : text := " 001194 CARRIER BALLOON/AIRCRAFT IDENTIFIER                              CCITTIA5                   0            0  72 ".
Definition b1523 : text := " 001195 MOBIL LAND STATION IDENTIFIER                                    CCITTIA5                   0            0  72 ".
Definition b1524 : text := " 001196 CONSTANT LEVEL BALLOON IDENTIFIER                                CCITTIA5                   0            0  72 ".
Definition b1525 : text := " 001197 RTP - PLATFORM TYPE                                              CODE TABLE 1197            0            0  10 ".
Definition b1526 : text := " 001198 ITP - DECK ID                                                    CODE TABLE 1198            0            0  10 ".
Definition b1527 : text := " 001199 DUP - DUPLICATE STATUS                                           CODE TABLE 1199            0            0   4 ".
Definition b1528 : text := " 001201 GENERATING APPLICATION                                           CODE TABLE 1201            0            0   8 ".
Definition b1529 : text := " 001205 SATELLITE IDENTIFIER                                             CODE TABLE 1205            0            0  10 ".
Definition b1530 : text := " 001208 VELOCITY OF PLATFORM, X                                          M/S                        5  -1073741824  31 ".
Definition b1531 : text := " 001209 VELOCITY OF PLATFORM, Y                                          M/S                        5  -1073741824  31 ".
Definition b1532 : text := " 001210 VELOCITY OF PLATFORM, Z                                          M/S                        5  -1073741824  31 ".
Definition b1533 : text := " 002001 TYPE OF STATION                                                  CODE TABLE 2001            0            0   2 CODE TABLE 2001           0         1".
Definition b1534 : text := " 002002 TYPE OF INSTRUMENTATION FOR WIND MEASUREMENT                     FLAG TABLE 2002            0            0   4 FLAG TABLE 2002           0         2".
Definition b1535 : text := " 002003 TYPE OF MEASURING EQUIPMENT USED                                 CODE TABLE 2003            0            0   4 CODE TABLE 2003           0         2".
Definition b1536 : text := " 002004 TYPE OF INSTRUMENTATION FOR EVAPORATION MEASUREMENT OR TYPE OF C CODE TABLE 2004            0            0   4 CODE TABLE 2004           0         2".
Definition b1537 : text := " 002005 PRECISION OF TEMPERATURE OBSERVATION                             K                          2            0   7 K                         2         3".
Definition b1538 : text := " 002011 RADIOSONDE TYPE                                                  CODE TABLE 2011            0            0   8 CODE TABLE 2011           0         3".
Definition b1539 : text := " 002012 RADIOSONDE COMPUTATIONAL METHOD                                  CODE TABLE 2012            0            0   4 CODE TABLE 2012           0         2".
Definition b1540 : text := " 002013 SOLAR AND INFRARED RADIATION CORRECTION                          CODE TABLE 2013            0            0   4 CODE TABLE 2013           0         2".
Definition b1541 : text := " 002014 TRACKING TECHNIQUE/STATUS OF SYSTEM USED                         CODE TABLE 2014            0            0   7 CODE TABLE 2014           0         3".
Definition b1542 : text := " 002015 RADIOSONDE COMPLETENESS                                          CODE TABLE 2015            0            0   4 CODE TABLE 2015           0         2".
Definition b1543 : text := " 002016 RADIOSONDE CONFIGURATION                                         FLAG TABLE 2016            0            0   5 FLAG TABLE 2016           0         2".
Definition b1544 : text := " 002019 SATELLITE INSTRUMENTS                                            CODE TABLE 2019            0            0  11 CODE TABLE 2019           0         4".
Definition b1545 : text := " 002020 SATELLITE CLASSIFICATION                                         CODE TABLE 2020            0            0   9 CODE TABLE 2020           0         3".
Definition b1546 : text := " 002021 SATELLITE INSTRUMENT DATA USED IN PROCESSING                     FLAG TABLE 2021            0            0   9 FLAG TABLE 2021           0         3".
Definition b1547 : text := " 002022 SATELLITE DATA-PROCESSING TECHNIQUE USED                         FLAG TABLE 2022            0            0   8 FLAG TABLE 2022           0         3".
Definition b1548 : text := " 002023 SATELLITE DERIVED WIND COMPUTATION METHOD                        CODE TABLE 2023            0            0   4 CODE TABLE 2023           0         2".
Definition b1549 : text := " 002024 INTEGRATED MEAN HUMIDITY COMPUTATIONAL METHOD                    CODE TABLE 2024            0            0   4 CODE TABLE 2024           0         2".
Definition b1550 : text := " 002025 SATELLITE CHANNEL(S) USED IN COMPUTATION                         FLAG TABLE 2025            0            0  25 FLAG TABLE 2025           0         9".
Definition b1551 : text := " 002026 CROSS TRACK RESOLUTION                                           M                          2            0  12 M                         2         4".
Definition b1552 : text := " 002027 ALONG TRACK RESOLUTION                                           M                          2            0  12 M                         2         4".
Definition b1553 : text := " 002028 SEGMENT SIZE AT NADIR IN X DIRECTION                             M                          0            0  18 M                         0         6".
Definition b1554 : text := " 002029 SEGMENT SIZE AT NADIR IN Y DIRECTION                             M                          0            0  18 M                         0         6".
Definition b1555 : text := " 002030 METHOD OF CURRENT MEASUREMENT                                    CODE TABLE 2030            0            0   3 CODE TABLE 2030           0         1".
Definition b1556 : text := " 002031 DURATION AND TIME OF CURRENT MEASUREMENT                         CODE TABLE 2031            0            0   5 CODE TABLE 2031           0         2".
Definition b1557 : text := " 002032 INDICATOR FOR DIGITIZATION                                       CODE TABLE 2032            0            0   2 CODE TABLE 2032           0         1".
Definition b1558 : text := " 002033 METHOD OF SALINITY/DEPTH MEASUREMENT                             CODE TABLE 2033            0            0   3 CODE TABLE 2033           0         1".
Definition b1559 : text := " 002034 DROGUE TYPE                                                      CODE TABLE 2034            0            0   5 CODE TABLE 2034           0         2".
Definition b1560 : text := " 002035 CABLE LENGTH                                                     M                          0            0   9 M                         0         3".
Definition b1561 : text := " 002036 BUOY TYPE                                                        CODE TABLE 2036            0            0   2 CODE TABLE 2036           0         1".
Definition b1562 : text := " 002037 METHOD OF TIDAL OBSERVATION                                      CODE TABLE 2037            0            0   3 CODE TABLE 2037           0         1".
Definition b1563 : text := " 002038 METHOD OF WATER TEMPERATURE AND/OR SALINITY MEASUREMENT          CODE TABLE 2038            0            0   4 CODE TABLE 2038           0         2".
Definition b1564 : text := " 002039 METHOD OF WET-BULB TEMPERATURE MEASUREMENT                       CODE TABLE 2039            0            0   3 CODE TABLE 2039           0         1".
Definition b1565 : text := " 002040 METHOD OF REMOVING VELOCITY AND MOTION OF PLATFORM FROM CURRENT  CODE TABLE 2040            0            0   4 CODE TABLE 2040           0         2".
Definition b1566 : text := " 002041 METHOD FOR ESTIMATING REPORTS RELATED TO SYNOPTIC FEATURES       CODE TABLE 2041            0            0   6 CODE TABLE 2041           0         2".
Definition b1567 : text := " 002044 INDICATOR FOR METHOD OF CALCULATING SPECTRAL WAVE DATA           CODE TABLE 2044            0            0   4 CODE TABLE 2044           0         2".
Definition b1568 : text := " 002045 INDICATOR FOR TYPE OF PLATFORM                                   CODE TABLE 2045            0            0   4 CODE TABLE 2045           0         2".
Definition b1569 : text := " 002046 WAVE MEASUREMENT INSTRUMENTATION                                 CODE TABLE 2046            0            0   4 CODE TABLE 2046           0         2".
Definition b1570 : text := " 002048 SATELLITE SENSOR INDICATOR                                       CODE TABLE 2048            0            0   4 CODE TABLE 2048           0         2".
Definition b1571 : text := " 002049 GEOSTATIONARY SATELLITE DATA-PROCESSING TECHNIQUE USED           FLAG TABLE 2049            0            0   8 FLAG TABLE 2049           0         3".
Definition b1572 : text := " 002050 GEOSTATIONARY SOUNDER SATELLITE CHANNELS USED                    FLAG TABLE 2050            0            0  20 FLAG TABLE 2050           0         7".
Definition b1573 : text := " 002051 INDICATOR TO SPECIFY OBSERVING METHOD FOR EXTREME TEMPERATURES   CODE TABLE 2051            0            0   4 CODE TABLE 2051           0         2".
Definition b1574 : text := " 002052 GEOSTATIONARY IMAGER SATELLITE CHANNELS USED                     FLAG TABLE 2052            0            0   6 FLAG TABLE 2052           0         2".
Definition b1575 : text := " 002053 GOES-I/M BRIGHTNESS TEMPERATURE CHARACTERISTICS                  CODE TABLE 2053            0            0   4 CODE TABLE 2053           0         2".
Definition b1576 : text := " 002054 GOES-I/M SOUNDINGS PARAMETER CHARACTERISTICS                     CODE TABLE 2054            0            0   4 CODE TABLE 2054           0         2".
Definition b1577 : text := " 002055 GEOSTATIONARY SOUNDINGS STATISTICAL PARAMETERS                   CODE TABLE 2055            0            0   4 CODE TABLE 2055           0         2".
Definition b1578 : text := " 002056 GEOSTATIONARY SOUNDINGS ACCURACY STATISTICS                      CODE TABLE 2056            0            0   4 CODE TABLE 2056           0         2".
Definition b1579 : text := " 002057 ORIGIN OF FIRST GUESS INFORMATION FOR GOES-I/M SOUNDINGS         CODE TABLE 2057            0            0   4 CODE TABLE 2057           0         2".
Definition b1580 : text := " 002058 VALID TIMES OF FIRST GUESS INFORMATION FOR GOES-I/M SOUNDINGS    CODE TABLE 2058            0            0   4 CODE TABLE 2058           0         2".
Definition b1581 : text := " 002059 ORIGIN OF ANALYSIS INFORMATION FOR GOES-I/M SOUNDINGS            CODE TABLE 2059            0            0   4 CODE TABLE 2059           0         2".
Definition b1582 : text := " 002060 ORIGIN OF SURFACE INFORMATION FOR GOES-I/M SOUNDINGS             CODE TABLE 2060            0            0   4 CODE TABLE 2060           0         2".
Definition b1583 : text := " 002061 AIRCRAFT NAVIGATIONAL SYSTEM                                     CODE TABLE 2061            0            0   3 CODE TABLE 2061           0         1".
Definition b1584 : text := " 002062 TYPE OF AIRCRAFT DATA RELAY SYSTEM                               CODE TABLE 2062            0            0   4 CODE TABLE 2062           0         2".
Definition b1585 : text := " 002063 AIRCRAFT ROLL ANGLE                                              DEGREE                     2       -18000  16 DEGREE                    2         5".
Definition b1586 : text := " 002064 AIRCRAFT ROLL ANGLE QUALITY                                      CODE TABLE 2064            0            0   2 CODE TABLE 2064           0         1".
Definition b1587 : text := " 002065 ACARS GROUND RECEIVING STATION                                   CCITTIA5                   0            0  40 CHARACTER                 0         5".
Definition b1588 : text := " 002066 RADIOSONDE GROUND RECEIVING SYSTEM                               CODE TABLE 2066            0            0   6 CODE TABLE 2066           0         2".
Definition b1589 : text := " 002067 RADIOSONDE OPERATING FREQUENCY                                   Hz                        -5            0  15 Hz                       -5         5".
Definition b1590 : text := " 002070 ORIGINAL SPECIFICATION OF LATITUDE/LONGITUDE                     CODE TABLE 2070            0            0   4 CODE TABLE 2070           0         2".
Definition b1591 : text := " 002080 BALLOON MANUFACTURER                                             CODE TABLE 2080            0            0   6 CODE TABLE 2080           0         2".
Definition b1592 : text := " 002081 TYPE OF BALLOON                                                  CODE TABLE 2081            0            0   5 CODE TABLE 2081           0         2".
Definition b1593 : text := " 002082 WEIGHT OF BALLOON                                                KG                         3            0  12 KG                        3         4".
Definition b1594 : text := " 002083 TYPE OF BALLOON SHELTER                                          CODE TABLE 2083            0            0   4 CODE TABLE 2083           0         2".
Definition b1595 : text := " 002084 TYPE OF GAS USED IN BALLOON                                      CODE TABLE 2084            0            0   4 CODE TABLE 2084           0         2".
Definition b1596 : text := " 002085 AMOUNT OF GAS USED IN BALLOON                                    KG                         3            0  13 KG                        3         4".
Definition b1597 : text := " 002086 BALLOON FLIGHT TRAIN LENGTH                                      M                          1            0  10 M                         1         4".
Definition b1598 : text := " 002091 ENTRY SENSOR 4/20 MA                                             A                          4            0  10 A                         4         3".
Definition b1599 : text := " 002095 TYPE OF PRESSURE SENSOR                                          CODE TABLE 2095            0            0   5 CODE TABLE 2095           0         2".
Definition b1600 : text := " 002096 TYPE OF TEMPERATURE SENSOR                                       CODE TABLE 2096            0            0   5 CODE TABLE 2096           0         2".
Definition b1601 : text := " 002097 TYPE OF HUMIDITY SENSOR                                          CODE TABLE 2097            0            0   5 CODE TABLE 2097           0         2".
Definition b1602 : text := " 002100 RADAR CONSTANT                                                   dB                         1            0  12 dB                        1         4".
Definition b1603 : text := " 002101 TYPE OF ANTENNA                                                  CODE TABLE 2101            0            0   4 CODE TABLE 2101           0         2".
Definition b1604 : text := " 002102 ANTENNA HEIGHT ABOVE TOWER BASE                                  M                          0            0   8 M                         0         3".
Definition b1605 : text := " 002103 RADOME                                                           FLAG TABLE 2103            0            0   2 FLAG TABLE 2103           0         1".
Definition b1606 : text := " 002104 ANTENNA POLARISATION                                             CODE TABLE 2104            0            0   4 CODE TABLE 2104           0         2".
Definition b1607 : text := " 002105 MAXIMUM ANTENNA GAIN                                             dB                         0            0   6 dB                        0         2".
Definition b1608 : text := " 002106 3-DB BEAMWIDTH                                                   DEGREE                     1            0   6 DEGREE                    1         2".
Definition b1609 : text := " 002107 SIDELOBE SUPPRESSION                                             dB                         0            0   6 dB                        0         2".
Definition b1610 : text := " 002108 CROSSPOL DISCRIMINATION (ON AXIS)                                dB                         0            0   6 dB                        0         2".
Definition b1611 : text := " 002109 ANTENNA SPEED (AZIMUTH)                                          DEGREE/S                   2            0  12 DEGREE/S                  2         4".
Definition b1612 : text := " 002110 ANTENNA SPEED (ELEVATION)                                        DEGREE/S                   2            0  12 DEGREE/S                  2         4".
Definition b1613 : text := " 002111 RADAR INCIDENCE ANGLE                                            DEGREE                     1            0  10 DEGREE                    1         4".
Definition b1614 : text := " 002112 RADAR LOOK ANGLE                                                 DEGREE                     1            0  12 DEGREE                    1         4".
Definition b1615 : text := " 002113 NUMBER OF AZIMUTH LOOKS                                          NUMERIC                    0            0   4 NUMERIC                   0         2".
Definition b1616 : text := " 002114 ANTENNA EFFECTIVE SURFACE AREA                                   M**2                       0            0  15 M**2                      0         5".
Definition b1617 : text := " 002115 TYPE OF SURFACE OBSERVING EQUIPMENT                              CODE TABLE 2115            0            0   5 CODE TABLE 2115           0         2".
Definition b1618 : text := " 002116 PERCENTAGE OF 320 MHZ BAND PROCESSED                             %                          0            0   7 %                         0         3".
Definition b1619 : text := " 002117 PERCENTAGE OF 80 MHZ BAND PROCESSED                              %                          0            0   7 %                         0         3".
Definition b1620 : text := " 002118 PERCENTAGE OF 20 MHZ BAND PROCESSED                              %                          0            0   7 %                         0         3".
Definition b1621 : text := " 002119 RA-2 INSTRUMENT OPERATIONS                                       CODE TABLE 2119            0            0   3 CODE TABLE 2119           0         1".
Definition b1622 : text := " 002120 OCEAN WAVE FREQUENCY                                             Hz                         3            0  10 Hz                        3         4".
Definition b1623 : text := " 002121 MEAN FREQUENCY                                                   Hz                        -8            0   7 Hz                       -8         3".
Definition b1624 : text := " 002122 FREQUENCY AGILITY RANGE                                          Hz                        -6         -128   8 Hz                       -6         3".
Definition b1625 : text := " 002123 PEAK POWER                                                       W                         -4            0   7 W                        -4         3".
Definition b1626 : text := " 002124 AVERAGE POWER                                                    W                         -1            0   7 W                        -1         3".
Definition b1627 : text := " 002125 PULSE REPETITION FREQUENCY                                       Hz                        -1            0   8 Hz                       -1         3".
Definition b1628 : text := " 002126 PULSE WIDTH                                                      S                          7            0   6 S                         7         2".
Definition b1629 : text := " 002127 RECEIVER INTERMEDIATE FREQUENCY                                  Hz                        -6            0   7 Hz                       -6         3".
Definition b1630 : text := " 002128 INTERMEDIATE FREQUENCY BANDWIDTH                                 Hz                        -5            0   6 Hz                       -5         2".
Definition b1631 : text := " 002129 MINIMUM DETECTABLE SIGNAL                                        dB                         0         -150   5 dB                        0         3".
Definition b1632 : text := " 002130 DYNAMIC RANGE                                                    dB                         0            0   7 dB                        0         3".
Definition b1633 : text := " 002131 SENSITIVITY TIME CONTROL (STC)                                   FLAG TABLE 2131            0            0   2 FLAG TABLE 2131           0         1".
Definition b1634 : text := " 002132 AZIMUTH POINTING ACCURACY                                        DEGREE                     2            0   6 DEGREE                    2         2".
Definition b1635 : text := " 002133 ELEVATION POINTING ACCURACY                                      DEGREE                     2            0   6 DEGREE                    2         2".
Definition b1636 : text := " 002134 ANTENNA BEAM AZIMUTH                                             DEGREE                     2            0  16 DEGREE                    2         5".
Definition b1637 : text := " 002135 ANTENNA ELEVATION                                                DEGREE                     2        -9000  15 DEGREE                    2         5".
Definition b1638 : text := " 002136 RANGE PROCESSED BY RANGE ATTENUATION CORRECTION                  M                         -3            0  16 M                        -3         5".
Definition b1639 : text := " 002140 SATELLITE RADAR BEAM AZIMUTH ANGLE                               DEGREE                     0            0   9 DEGREE                    0         3".
Definition b1640 : text := " 002141 MEASUREMENT TYPE                                                 CCITTIA5                   0            0  24 CHARACTER                 0         3".
Definition b1641 : text := " 002142 OZONE INSTRUMENT SERIAL NUMBER/ IDENTIFICATION                   CCITTIA5                   0            0  32 CHARACTER                 0         4".
Definition b1642 : text := " 002143 OZONE INSTRUMENT TYPE                                            CODE TABLE 2143            0            0   7 CODE TABLE 2143           0         3".
Definition b1643 : text := " 002144 LIGHT SOURCE TYPE FOR BREWER SPECTRO PHOTOMETER                  CODE TABLE 2144            0            0   4 CODE TABLE 2144           0         2".
Definition b1644 : text := " 002145 WAVE LENGTH SETTING FOR DOBSON INSTRUMENTS                       CODE TABLE 2145            0            0   4 CODE TABLE 2145           0         2".
Definition b1645 : text := " 002146 SOURCE CONDITIONS FOR DOBSON INSTRUMENTS                         CODE TABLE 2146            0            0   4 CODE TABLE 2146           0         2".
Definition b1646 : text := " 002148 DATA COLLECTION AND/OR LOCATION SYSTEM                           CODE TABLE 2148            0            0   5 CODE TABLE 2148           0         2".
Definition b1647 : text := " 002149 TYPE OF DATA BUOY                                                CODE TABLE 2149            0            0   6 CODE TABLE 2149           0         2".
Definition b1648 : text := " 002150 TOVS/ATOVS/AVHRR INSTRUMENTATION CHANNEL NUMBER                  CODE TABLE 2150            0            0   6 CODE TABLE 2150           0         2".
Definition b1649 : text := " 002151 RADIOMETER IDENTIFIER                                            CODE TABLE 2151            0            0  11 CODE TABLE 2151           0         4".
Definition b1650 : text := " 002152 SATELLITE INSTRUMENT USED IN DATA PROCESSING(6)                  FLAG TABLE 2152            0            0  31 FLAG TABLE 2152           0        10".
Definition b1651 : text := " 002153 SATELLITE CHANNEL CENTRE FREQUENCY                               Hz                        -8            0  26 Hz                       -8         8".
Definition b1652 : text := " 002154 SATELLITE CHANNEL BAND WIDTH                                     Hz                        -8            0  26 Hz                       -8         8".
Definition b1653 : text := " 002156 PERCENTAGE OF VALID KU OCEAN RETRACKER MEASUREMENTS              %                          0            0   7 %                         0         3".
Definition b1654 : text := " 002157 PERCENTAGE OF VALID S OCEAN RETRACKER MEASUREMENTS               %                          0            0   7 %                         0         3".
Definition b1655 : text := " 002158 RA-2 INSTRUMENT                                                  FLAG TABLE 2158            0            0   9 FLAG TABLE 2158           0         3".
Definition b1656 : text := " 002159 MWR INSTRUMENT                                                   FLAG TABLE 2159            0            0   8 FLAG TABLE 2159           0         3".
Definition b1657 : text := " 002163 HEIGHT ASSIGNMENT METHOD                                         CODE TABLE 2163            0            0   4 CODE TABLE 2163           0         2".
Definition b1658 : text := " 002164 TRACER CORRELATION METHOD                                        CODE TABLE 2164            0            0   3 CODE TABLE 2164           0         1".
Definition b1659 : text := " 002166 RADIANCE TYPE                                                    CODE TABLE 2166            0            0   4 CODE TABLE 2166           0         2".
Definition b1660 : text := " 002167 RADIANCE COMPUTATIONAL METHOD                                    CODE TABLE 2167            0            0   4 CODE TABLE 2167           0         2".
Definition b1661 : text := " 002168 HYDROSTATIC PRESSURE OF LOWER END OF CABLE (THERMISTOR STRING)   PA                        -3            0  16 KPA                       0         5".
Definition b1662 : text := " 002169 ANEMOMETER TYPE                                                  CODE TABLE 2169            0            0   4 CODE TABLE 2169           0         2".
Definition b1663 : text := " 002172 PRODUCT TYPE FOR RETRIEVED ATMOSPHERIC GASES                     CODE TABLE 2172            0            0   8 CODE TABLE 2172           0         3".
Definition b1664 : text := " 002173 SQUARE OF THE OFF NADIR ANGLE (7)                                DEGREE2                    4            0  10 DEGREE2                   4         4".
Definition b1665 : text := " 002174 MEAN ACROSS TRACK PIXEL NUMBER                                   NUMERIC                    0            0   9 NUMERIC                   0         3".
Definition b1666 : text := " 002175 METHOD OF PRECIPITATION MEASUREMENT                              CODE TABLE 2175            0            0   4 CODE TABLE 2175           0         2".
Definition b1667 : text := " 002176 METHOD OF STATE OF GROUND MEASUREMENT                            CODE TABLE 2176            0            0   4 CODE TABLE 2176           0         2".
Definition b1668 : text := " 002177 METHOD OF SNOW DEPTH MEASUREMENT                                 CODE TABLE 2177            0            0   4 CODE TABLE 2177           0         2".
Definition b1669 : text := " 002178 METHOD OF LIQUID CONTENT MEASUREMENT OF PRECIPITATION            CODE TABLE 2178            0            0   4 CODE TABLE 2178           0         2".
Definition b1670 : text := " 002179 TYPE OF SKY CONDITION ALGORITHM                                  CODE TABLE 2179            0            0   4 CODE TABLE 2179           0         2".
Definition b1671 : text := " 002180 MAIN PRESENT WEATHER DETECTING SYSTEM                            CODE TABLE 2180            0            0   4 CODE TABLE 2180           0         2".
Definition b1672 : text := " 002181 SUPPLEMENTARY PRESENT WEATHER SENSOR                             FLAG TABLE 2181            0            0  21 FLAG TABLE 2181           0         7".
Definition b1673 : text := " 002182 VISIBILITY MEASUREMENT SYSTEM                                    CODE TABLE 2182            0            0   4 CODE TABLE 2182           0         2".
Definition b1674 : text := " 002183 CLOUD DETECTION SYSTEM                                           CODE TABLE 2183            0            0   4 CODE TABLE 2183           0         2".
Definition b1675 : text := " 002184 TYPE OF LIGHTNING DETECTION SENSOR                               CODE TABLE 2184            0            0   4 CODE TABLE 2184           0         2".
Definition b1676 : text := " 002185 METHOD OF EVAPORATION MEASUREMENT                                CODE TABLE 2185            0            0   4 CODE TABLE 2185           0         2".
Definition b1677 : text := " 002186 CAPABILITY TO DETECT PRECIPITATION PHENOMENA                     FLAG TABLE 2186            0            0  30 FLAG TABLE 2186           0        10".
Definition b1678 : text := " 002187 CAPABILITY TO DETECT OTHER WEATHER PHENOMENA                     FLAG TABLE 2187            0            0  18 FLAG TABLE 2187           0         6".
Definition b1679 : text := " 002188 CAPABILITY TO DETECT OBSCURATION                                 FLAG TABLE 2188            0            0  21 FLAG TABLE 2188           0         7".
Definition b1680 : text := " 002189 CAPABILITY TO DISCRIMINATE LIGHTNING STRIKES                     FLAG TABLE 2189            0            0  12 FLAG TABLE 2189           0         4".
Definition b1681 : text := " 002190 LAGRANGIAN DRIFTER SUBMERGENCE (% TIME SUBMERGED)                %                          0            0   7 %                         0         3".
Definition b1682 : text := " 002193 1D VAR SATELLITE CHANNEL(S) USED                                 FLAG TABLE 2193            0            0  28 ".
Definition b1683 : text := " 002194 CONSTANT LEVEL BALLOON TYPE                                      CODE TABLE 2194            0            0   4 ".
Definition b1684 : text := " 002195 TYPE OF SATELLITE INSTRUMENTATION                                CODE TABLE 2195            0            0   4 ".
Definition b1685 : text := " 002196 SATELLITE CLASSIFICATION                                         CODE TABLE 2196            0            0   9 ".
Definition b1686 : text := " 002197 SATELLITE CHANNEL CENTRE FREQUENCY                               Hz                        -8            0  26 ".
Definition b1687 : text := " 002198 SATELLITE CHANNEL BAND WIDTH                                     Hz                        -8            0  26 ".
Definition b1688 : text := " 002199 INTEGRATED MEAN HUMIDITY COMPUTATIONAL METHOD                    CODE TABLE 2199            0            0   4 ".
Definition b1689 : text := " 002200 LATITUDINAL RESOLUTION                                           DEGREE                     5            0  25 ".
Definition b1690 : text := " 002202 SIMULATED DATA PROCESSING TECHNIQUE USED                         FLAG TABLE 2202            0            0   4 ".
Definition b1691 : text := " 002220 DATA PRODUCER                                                    CODE TABLE 2220            0            0   9 ".
Definition b1692 : text := " 002221 SEGMENT SIZE AT NADIR IN X DIRECTION                             M                          0            0  18 ".
Definition b1693 : text := " 002222 SEGMENT SIZE AT NADIR IN Y DIRECTION                             M                          0            0  18 ".
Definition b1694 : text := " 002223 TOVS/ATOVS/AVHRR CHANNEL NUMBER                                  CODE TABLE 2223            0            0   6 ".
Definition b1695 : text := " 002231 HEIGHT ASSIGNMENT METHOD                                         CODE TABLE 2231            0            0   4 ".
Definition b1696 : text := " 002232 TRACER CORRELATION METHOD                                        CODE TABLE 2232            0            0   3 ".
Definition b1697 : text := " 002240 TYPE OF TERMODYNAMIC SENSING                                     CODE TABLE 2240            0            0   8 ".
Definition b1698 : text := " 002241 TYPE OF ROCKET MOTOR                                             CODE TABLE 2241            0            0   3 ".
Definition b1699 : text := " 002242 TYPE OF WIND SENSING EQUIPMENT                                   CODE TABLE 2242            0            0   8 ".
Definition b1700 : text := " 002243 TERMODYNAMIC CORRECTION TECHNIQUE                                CODE TABLE 2243            0            0   3 ".
Definition b1701 : text := " 002244 WIND CORRECTION TECHNIQUE                                        CODE TABLE 2244            0            0   3 ".
Definition b1702 : text := " 002245 METHOD OF REDUCING OF DATA                                       CODE TABLE 2245            0            0   4 ".
Definition b1703 : text := " 002251 RADIANCE COMPUTATIONAL METHOD                                    CODE TABLE 2251            0            0   4 ".
Definition b1704 : text := " 002252 SATELLITE INSTRUMENT DATA USED IN PROCESSING                     FLAG TABLE 2252            0            0  31 ".
Definition b1705 : text := " 002253 HUMIDITY COMPUTATIONAL METHOD                                    CODE TABLE 2253            0            0   8 ".
Definition b1706 : text := " 002254 RADIANCE TYPE                                                    CODE TABLE 2254            0            0   4 ".
Definition b1707 : text := " 004001 YEAR                                                             YEAR                       0            0  12 YEAR                      0         4".
Definition b1708 : text := " 004002 MONTH                                                            MONTH                      0            0   4 MONTH                     0         2".
Definition b1709 : text := " 004003 DAY                                                              DAY                        0            0   6 DAY                       0         2".
Definition b1710 : text := " 004004 HOUR                                                             HOUR                       0            0   5 HOUR                      0         2".
Definition b1711 : text := " 004005 MINUTE                                                           MINUTE                     0            0   6 MINUTE                    0         2".
Definition b1712 : text := " 004006 SECOND                                                           SECOND                     0            0   6 SECOND                    0         2".
Definition b1713 : text := " 004007 SECONDS WITHIN A MINUTE (MICROSECOND ACCURACY)                   SECOND                     6            0  26 S                         6         8".
Definition b1714 : text := " 004011 TIME INCREMENT                                                   YEAR                       0        -1024  11 YEAR                      0         4".
Definition b1715 : text := " 004012 TIME INCREMENT                                                   MONTH                      0        -1024  11 MONTH                     0         4".
Definition b1716 : text := " 004013 TIME INCREMENT                                                   DAY                        0        -1024  11 DAY                       0         4".
Definition b1717 : text := " 004014 TIME INCREMENT                                                   HOUR                       0        -1024  11 HOUR                      0         4".
Definition b1718 : text := " 004015 TIME INCREMENT                                                   MINUTE                     0        -2048  12 MINUTE                    0         4".
Definition b1719 : text := " 004016 TIME INCREMENT                                                   SECOND                     0        -4096  13 SECOND                    0         4".
Definition b1720 : text := " 004017 REFERENCE TIME PERIOD FOR ACCUMULATED OR EXTREME DATA            MINUTE                     0        -1440  12 MINUTE                    0         4".
Definition b1721 : text := " 004021 TIME PERIOD OR DISPLACEMENT                                      YEAR                       0        -1024  11 YEAR                      0         4".
Definition b1722 : text := " 004022 TIME PERIOD OR DISPLACEMENT                                      MONTH                      0        -1024  11 MONTH                     0         4".
Definition b1723 : text := " 004023 TIME PERIOD OR DISPLACEMENT                                      DAY                        0        -1024  11 DAY                       0         4".
Definition b1724 : text := " 004024 TIME PERIOD OR DISPLACEMENT                                      HOUR                       0        -2048  12 HOUR                      0         4".
Definition b1725 : text := " 004025 TIME PERIOD OR DISPLACEMENT                                      MINUTE                     0        -2048  12 MINUTE                    0         4".
Definition b1726 : text := " 004026 TIME PERIOD OR DISPLACEMENT                                      SECOND                     0        -4096  13 SECOND                    0         4".
Definition b1727 : text := " 004031 DURATION OF TIME RELATING TO FOLLOWING VALUE                     HOUR                       0            0   8 HOUR                      0         3".
Definition b1728 : text := " 004032 DURATION OF TIME RELATING TO FOLLOWING VALUE                     MINUTE                     0            0   6 MINUTE                    0         2".
Definition b1729 : text := " 004041 TIME DIFFERENCE, UTC -LMT (SEE NOTE 6)                           MINUTE                     0        -1440  12 MINUTE                    0         4".
Definition b1730 : text := " 004043 DAY OF THE YEAR                                                  DAY                        0            0   9 DAY                       0         3".
Definition b1731 : text := " 004051 PRINCIPAL TIME OF DAILY READING OF MAXIMUM TEMPERATURE           HOUR                       0            0   5 HOUR                      0         2".
Definition b1732 : text := " 004052 PRINCIPAL TIME OF DAILY READING OF MINIMUM TEMPERATURE           HOUR                       0            0   5 HOUR                      0         2".
Definition b1733 : text := " 004053 NUMBER OF DAYS WITH PRECIPITATION EQUAL TO OR MORE THAN 1 MM     NUMERIC                    0            0   6 NUMERIC                   0         2".
Definition b1734 : text := " 004059 TIMES OF OBSERVATION USED TO COMPUTE THE REPORTED MEAN VALUES    FLAG TABLE 4059            0            0   6 FLAG TABLE 4059           0         2".
Definition b1735 : text := " 004065 SHORT TIME INCREMENT                                             MINUTE                     0         -128   8 MINUTE                    0         2".
Definition b1736 : text := " 004073 SHORT TIME PERIOD OR DISPLACEMENT                                DAY                        0         -128   8 DAY                       0         2".
Definition b1737 : text := " 004074 SHORT TIME PERIOD OR DISPLACEMENT                                HOUR                       0         -128   8 HOUR                      0         2".
Definition b1738 : text := " 004075 SHORT TIME PERIOD OR DISPLACEMENT                                MINUTE                     0         -128   8 MINUTE                    0         2".
Definition b1739 : text := " 004086 LONG TIME PERIOD OR DISPLACEMENT                                 SECOND                     0        -8192  15 SECOND                    0         5".
Definition b1740 : text := " 005001 LATITUDE (HIGH ACCURACY)                                         DEGREE                     5     -9000000  25 DEGREE                    5         7".
Definition b1741 : text := " 005002 LATITUDE (COARSE ACCURACY)                                       DEGREE                     2        -9000  15 DEGREE                    2         4".
Definition b1742 : text := " 005011 LATITUDE INCREMENT (HIGH ACCURACY)                               DEGREE                     5     -9000000  25 DEGREE                    5         7".
Definition b1743 : text := " 005012 LATITUDE INCREMENT (COARSE ACCURACY)                             DEGREE                     2        -9000  15 DEGREE                    2         4".
Definition b1744 : text := " 005015 LATITUDE DISPLACEMENT (HIGH ACCURACY)                            DEGREE                     5     -9000000  25 DEGREE                    5         7".
Definition b1745 : text := " 005016 LATITUDE DISPLACEMENT (COARSE ACCURACY)                          DEGREE                     2        -9000  15 DEGREE                    2         4".
Definition b1746 : text := " 005021 BEARING OR AZIMUTH                                               DEGREE TRUE                2            0  16 DEGREE TRUE               2         5".
Definition b1747 : text := " 005022 SOLAR AZIMUTH                                                    DEGREE TRUE                2            0  16 DEGREE TRUE               2         5".
Definition b1748 : text := " 005023 SUN TO SATELLITE AZIMUTH DIFFERENCE                              DEGREE                     1        -1800  12 DEGREE                    1         4".
Definition b1749 : text := " 005030 DIRECTION (SPECTRAL)                                             DEGREE                     0            0  12 DEGREE                    0         4".
Definition b1750 : text := " 005031 ROW NUMBER                                                       NUMERIC                    0            0  12 NUMERIC                   0         4".
Definition b1751 : text := " 005033 PIXEL SIZE ON HORIZONTAL - 1                                     M                         -1            0  16 M                        -1         5".
Definition b1752 : text := " 005034 ALONG TRACK ROW NUMBER                                           NUMERIC                    0            0  11 NUMERIC                   0         4".
Definition b1753 : text := " 005036 SHIP TRANSECT NUMBER ACCORDING TO SOOP                           NUMERIC                    0            0   7 NUMERIC                   0         2".
Definition b1754 : text := " 005040 ORBIT NUMBER                                                     NUMERIC                    0            0  24 NUMERIC                   0         8".
Definition b1755 : text := " 005041 SCAN LINE NUMBER                                                 NUMERIC                    0            0   8 NUMERIC                   0         3".
Definition b1756 : text := " 005042 CHANNEL NUMBER                                                   NUMERIC                    0            0   6 NUMERIC                   0         2^".
Definition b1757 : text := " 005043 FIELD OF VIEW NUMBER                                             NUMERIC                    0            0   8 NUMERIC                   0         3".
Definition b1758 : text := " 005044 SATELLITE CYCLE NUMBER                                           NUMERIC                    0            0  11 NUMERIC                   0         4".
Definition b1759 : text := " 005052 CHANNEL NUMBER INCREMENT                                         NUMERIC                    0            0   5 NUMERIC                   0         2".
Definition b1760 : text := " 005053 FIELD OF VIEW NUMBER INCREMENT                                   NUMERIC                    0            0   5 NUMERIC                   0         2".
Definition b1761 : text := " 005193 ALONG TRACK ROW NUMBER AT 50 KM                                  NUMERIC                    0            0  10 NUMERIC                   0         4".
Definition b1762 : text := " 005194 ALONG TRACK ROW NUMBER AT 25 KM                                  NUMERIC                    0            0  11 NUMERIC                   0         4 ".
Definition b1763 : text := " 005195 ENSEMBLE MEMBER NUMBER                                           NUMERIC                    0            0   7 NUMERIC                   0         3".
Definition b1764 : text := " 005217 LOCATION OF PLATFORM, X                                          M                          2  -1073741824  31 M                         2        10".
Definition b1765 : text := " 005232 DIRECTION (SPECTRAL)                                             DEGREE                     2            0  16 DEGREE                    2         5".
Definition b1766 : text := " 006001 LONGITUDE (HIGH ACCURACY)                                        DEGREE                     5    -18000000  26 DEGREE                    5         8".
Definition b1767 : text := " 006002 LONGITUDE (COARSE ACCURACY)                                      DEGREE                     2       -18000  16 DEGREE                    2         5".
Definition b1768 : text := " 006011 LONGITUDE INCREMENT (HIGH ACCURACY)                              DEGREE                     5    -18000000  26 DEGREE                    5         8".
Definition b1769 : text := " 006012 LONGITUDE INCREMENT (COARSE ACCURACY)                            DEGREE                     2       -18000  16 DEGREE                    2         5".
Definition b1770 : text := " 006015 LONGITUDE DISPLACEMENT (HIGH ACCURACY)                           DEGREE                     5    -18000000  26 DEGREE                    5         8".
Definition b1771 : text := " 006016 LONGITUDE DISPLACEMENT (COARSE ACCURACY)                         DEGREE                     2       -18000  16 DEGREE                    2         5".
Definition b1772 : text := " 006021 DISTANCE                                                         M                         -1            0  13 M                        -1         4".
Definition b1773 : text := " 006030 WAVE NUMBER (SPECTRAL)                                           RAD/M                      5            0  13 RAD/M                     5         4".
Definition b1774 : text := " 006031 COLUMN NUMBER                                                    NUMERIC                    0            0  12 NUMERIC                   0         4".
Definition b1775 : text := " 006033 PIXEL SIZE ON HORIZONTAL - 2                                     M                         -1            0  16 M                        -1         5".
Definition b1776 : text := " 006034 CROSS-TRACK CELL NUMBER                                          NUMERIC                    0            0   7 NUMERIC                   0         3".
Definition b1777 : text := " 006040 RADIUS OF CONFIDENCE                                             M                          0            0  13 M                         0         4".
Definition b1778 : text := " 006193 CROSS TRACK CELL NUMBER AT 50 KM                                 NUMERIC                    0            0   6 NUMERIC                   0         2".
Definition b1779 : text := " 006194 CROSS TRACK CELL NUMBER AT 25 KM                                 NUMERIC                    0            0   7 NUMERIC                   0         3".
Definition b1780 : text := " 006217 LOCATION OF PLATFORM, Y                                          M                          2  -1073741824  31 M                         2        10".
Definition b1781 : text := " 007001 HEIGHT OF STATION (SEE NOTE 1)                                   M                          0         -400  15 M                         0         5".
Definition b1782 : text := " 007002 HEIGHT OR ALTITUDE                                               M                         -1          -40  16 M                        -1         5".
Definition b1783 : text := " 007003 GEOPOTENTIAL                                                     M**2/S**2                 -1         -400  17 M**2/S**2                -1         6".
Definition b1784 : text := " 007004 PRESSURE                                                         PA                        -1            0  14 PA                       -1         5".
Definition b1785 : text := " 007005 HEIGHT INCREMENT                                                 M                          0         -400  12 M                         0         4".
Definition b1786 : text := " 007006 HEIGHT ABOVE STATION                                             M                          0            0  15 M                         0         5".
Definition b1787 : text := " 007007 HEIGHT                                                           M                          0        -1000  17 M                         0         6".
Definition b1788 : text := " 007008 GEOPOTENTIAL                                                     M**2/S**2                  0       -10000  20 M**2/S**2                 0         7".
Definition b1789 : text := " 007009 GEOPOTENTIAL HEIGHT                                              GPM                        0        -1000  17 GPM                       0         5".
Definition b1790 : text := " 007010 FLIGHT LEVEL                                                     M                          0        -1024  16 FT                       -1         5".
Definition b1791 : text := " 007021 ELEVATION (SEE NOTE 2)                                           DEGREE                     2        -9000  15 DEGREE                    2         5".
Definition b1792 : text := " 007022 SOLAR ELEVATION                                                  DEGREE                     2        -9000  15 DEGREE                    2         5".
Definition b1793 : text := " 007024 SATELLITE ZENITH ANGLE                                           DEGREE                     2        -9000  15 DEGREE                    2         5".
Definition b1794 : text := " 007025 SOLAR ZENITH ANGLE                                               DEGREE                     2        -9000  15 DEGREE                    2         5".
Definition b1795 : text := " 007026 SATELLITE ZENITH ANGLE                                           DEGREE                     4      -900000  21 DEGREE                    4         7".
Definition b1796 : text := " 007030 HEIGHT OF STATION GROUND ABOVE MEAN SEA LEVEL (SEE NOTE 3)       M                          1       - 4000  17 M                         1         5".
Definition b1797 : text := " 007031 HEIGHT OF BAROMETER ABOVE MEAN SEA LEVEL (SEE NOTE 4)            M                          1       - 4000  17 M                         1         5".
Definition b1798 : text := " 007032 HEIGHT OF SENSOR ABOVE LOCAL GROUND (OR DECK OF MARINE PLATFORM) M                          2            0  16 M                         2         5".
Definition b1799 : text := " 007033 HEIGHT OF SENSOR ABOVE WATER SURFACE (SEE NOTE 6)                M                          1            0  12 M                         1         4".
Definition b1800 : text := " 007040 IMPACT PARAMETER (SEE NOTE 8)                                    M                          1     62000000  22 M                         1         8".
Definition b1801 : text := " 007061 DEPTH BELOW LAND SURFACE                                         M                          2            0  14 M                         2         5".
Definition b1802 : text := " 007062 DEPTH BELOW SEA/WATER SURFACE                                    M                          1            0  17 M                         1         6".
Definition b1803 : text := " 007064 REPRESENTATIVE HEIGHT OF SENSOR ABOVE STATION (SEE NOTE 7)       M                          0            0   4 M                         0         2".
Definition b1804 : text := " 007070 DROGUE DEPTH                                                     M                          0            0  10 M                         0         4".
Definition b1805 : text := " 007217 LOCATION OF PLATFORM, Z                                          M                          2  -1073741824  31 M                         2        10".
Definition b1806 : text := " 008001 VERTICAL SOUNDING SIGNIFICANCE                                   FLAG TABLE 8001            0            0   7 FLAG TABLE 8001           0         3".
Definition b1807 : text := " 008002 VERTICAL SIGNIFICANCE (SURFACE OBSERVATIONS)                     CODE TABLE 8002            0            0   6 CODE TABLE 8002           0         2".
Definition b1808 : text := " 008003 VERTICAL SIGNIFICANCE (SATELLITE OBSERVATIONS)                   CODE TABLE 8003            0            0   6 CODE TABLE 8003           0         2".
Definition b1809 : text := " 008004 PHASE OF AIRCRAFT FLIGHT                                         CODE TABLE 8004            0            0   3 CODE TABLE 8004           0         1".
Definition b1810 : text := " 008005 METEOROLOGICAL ATTRIBUTE SIGNIFICANCE                            CODE TABLE 8005            0            0   4 CODE TABLE 8005           0         2".
Definition b1811 : text := " 008006 OZONE VERTICAL SOUNDING SIGNIFICANCE                             FLAG TABLE 8006            0            0   9 FLAG TABLE 8006           0         3".
Definition b1812 : text := " 008007 DIMENSIONAL SIGNIFICANCE                                         CODE TABLE 8007            0            0   4 CODE TABLE 8007           0         2".
Definition b1813 : text := " 008008 RADIATION VERTICAL SOUNDING SIGNIFICANCE                         FLAG TABLE 8008            0            0   9 FLAG TABLE 8008           0         3".
Definition b1814 : text := " 008009 DETAILED PHASE OF FLIGHT                                         CODE TABLE 8009            0            0   4 CODE TABLE 8009           0         2".
Definition b1815 : text := " 008010 SURFACE QUALIFIER (TEMPERATURE DATA)                             CODE TABLE 8010            0            0   5 CODE TABLE 8010           0         2".
Definition b1816 : text := " 008011 METEOROLOGICAL FEATURE                                           CODE TABLE 8011            0            0   6 CODE TABLE 8011           0         2".
Definition b1817 : text := " 008012 LAND/SEA QUALIFIER                                               CODE TABLE 8012            0            0   2 CODE TABLE 8012           0         1".
Definition b1818 : text := " 008013 DAY/NIGHT QUALIFIER                                              CODE TABLE 8013            0            0   2 CODE TABLE 8013           0         1".
Definition b1819 : text := " 008014 QUALIFIER FOR RUNWAY VISUAL RANGE                                CODE TABLE 8014            0            0   4 CODE TABLE 8014           0         2".
Definition b1820 : text := " 008016 CHANGE QUALIFIER OF A TREND-TYPE FORECAST OR AN AERODROME FORECA CODE TABLE 8016            0            0   3 CODE TABLE 8016           0         1".
Definition b1821 : text := " 008017 QUALIFIER OF THE TIME WHEN THE FORECAST CHANGE IS EXPECTED       CODE TABLE 8017            0            0   2 CODE TABLE 8017           0         1".
Definition b1822 : text := " 008018 SEAWINDS LAND/ICE SURFACE TYPE                                   FLAG TABLE 8018            0            0  17 FLAG TABLE 8018           0         6".
Definition b1823 : text := " 008020 TOTAL NUMBER OF MISSING ENTITIES (WITH RESPECT TO ACCUMULATION O NUMERIC                    0            0  16 NUMERIC                   0         5".
Definition b1824 : text := " 008021 TIME SIGNIFICANCE                                                CODE TABLE 8021            0            0   5 CODE TABLE 8021           0         2".
Definition b1825 : text := " 008022 TOTAL NUMBER (WITH RESPECT TO ACCUMULATION OR AVERAGE)           NUMERIC                    0            0  16 NUMERIC                   0         5".
Definition b1826 : text := " 008023 FIRST ORDER STATISTICS                                           CODE TABLE 8023            0            0   6 CODE TABLE 8023           0         2".
Definition b1827 : text := " 008024 DIFFERENCE STATISTICS                                            CODE TABLE 8024            0            0   6 CODE TABLE 8024           0         2".
Definition b1828 : text := " 008025 TIME DIFFERENCE QUALIFIER                                        CODE TABLE 8025            0            0   4 CODE TABLE 8025           0         2".
Definition b1829 : text := " 008030 MANUAL ON CODES (VOLUME I.1, SECTION C) CODE TABLE FROM WHICH DA NUMERIC                    0            0  13 NUMERIC                   0         4".
Definition b1830 : text := " 008031 DATA CATEGORY CREX TABLE A                                       NUMERIC                    0            0   8 NUMERIC                   0         3".
Definition b1831 : text := " 008033 METHOD OF DERIVATION OF PERCENTAGE CONFIDENCE                    CODE TABLE 8033            0            0   7 CODE TABLE 8033           0         3".
Definition b1832 : text := " 008035 TYPE OF MONITORING EXERCISE                                      CODE TABLE 8035            0            0   3 CODE TABLE 8035           0         1".
Definition b1833 : text := " 008036 TYPE OF CENTRE OR STATION PERFORMING MONITORING                  CODE TABLE 8036            0            0   3 CODE TABLE 8036           0         1".
Definition b1834 : text := " 008040 FLIGHT LEVEL SIGNIFICANCE                                        CODE TABLE 8040            0            0   6 CODE TABLE 8040           0         2".
Definition b1835 : text := " 008041 DATA SIGNIFICANCE                                                CODE TABLE 8041            0            0   5 CODE TABLE 8041           0         2".
Definition b1836 : text := " 008042 EXTENDED VERTICAL SOUNDING SIGNIFICANCE                          FLAG TABLE 8042            0            0  18 FLAG TABLE 8042           0         6".
Definition b1837 : text := " 008049 NUMBER OF OBSERVATIONS                                           NUMERIC                    0            0   8 NUMERIC                   0         3".
Definition b1838 : text := " 008050 QUALIFIER FOR NUMBER OF MISSING VALUES IN CALCULATION OF STATIST CODE TABLE 8050            0            0   4 CODE TABLE 8050           0         2".
Definition b1839 : text := " 008051 QUALIFIER FOR NUMBER OF MISSING VALUES IN CALCULATION OF STATIST CODE TABLE 8051            0            0   3 CODE TABLE 8051           0         1".
Definition b1840 : text := " 008052 CONDITION FOR WHICH NUMBER OF DAYS OF OCCURRENCE FOLLOWS         CODE TABLE 8052            0            0   5 CODE TABLE 8052           0         2".
Definition b1841 : text := " 008053 DAY OF OCCURRENCE QUALIFIER                                      CODE TABLE 8053            0            0   2 CODE TABLE 8053           0         1".
Definition b1842 : text := " 008060 SAMPLE SCANNING MODE SIGNIFICANCE                                CODE TABLE 8060            0            0   4 CODE TABLE 8060           0         2".
Definition b1843 : text := " 008065 SUN-GLINT INDICATOR                                              CODE TABLE 8065            0            0   2 CODE TABLE 8065           0         1".
Definition b1844 : text := " 008066 SEMI-TRANSPARENCY INDICATOR                                      CODE TABLE 8066            0            0   2 CODE TABLE 8066           0         1".
Definition b1845 : text := " 008070 TOVS/ATOVS PRODUCT QUALIFIER                                     CODE TABLE 8070            0            0   4 CODE TABLE 8070           0         2".
Definition b1846 : text := " 008072 PIXEL(S) TYPE                                                    CODE TABLE 8072            0            0   3 CODE TABLE 8072           0         1".
Definition b1847 : text := " 008074 ALTIMETER ECHO TYPE                                              CODE TABLE 8074            0            0   2 CODE TABLE 8074           0         1".
Definition b1848 : text := " 008075 ASCENDING/DESCENDING ORBIT QUALIFIER                             CODE TABLE 8075            0            0   2 CODE TABLE 8075           0         1".
Definition b1849 : text := " 008076 TYPE OF BAND                                                     CODE TABLE 8076            0            0   6 CODE TABLE 8076           0         2".
Definition b1850 : text := " 008081 TYPE OF EQUIPMENT                                                CODE TABLE 8081            0            0   6 CODE TABLE 8081           0         2".
Definition b1851 : text := " 008193 TIME QUALIFIER                                                   CODE TABLE 8193            0            0   6 CODE TABLE 8193           0         2".
Definition b1852 : text := " 008194 TOVS/ATOVS PRODUCT QUALIFIER                                     CODE TABLE 8194            0            0   4 CODE TABLE 8194           0         2".
Definition b1853 : text := " 008195 DATA TYPE                                                        CODE TABLE 8195            0            0   7 CODE TABLE 8195           0         3".
Definition b1854 : text := " 008200 NUMBER OF OBSERVATIONS                                           NUMERIC                    0            0   8 NUMERIC                   0         3".
Definition b1855 : text := " 008222 GENERATOR SIGNIFICANCE                                           CODE TABLE 8222            0            0   4 CODE TABLE 8222           0         2".
Definition b1856 : text := " 008223 LAND/ICE SURFACE FLAG                                            FLAG TABLE 8223            0            0   7 FLAG TABLE 8223           0         3".
Definition b1857 : text := " 008224 LAND/SEA FRACTION                                                NUMERIC                    3            0  10 NUMERIC                   3         4".
Definition b1858 : text := " 010001 HEIGHT OF LAND SURFACE                                           M                          0         -400  15 M                         0         5".
Definition b1859 : text := " 010002 HEIGHT                                                           M                         -1          -40  16 M                        -1         5".
Definition b1860 : text := " 010003 GEOPOTENTIAL                                                     M**2/S**2                 -1         -400  17 M**2/S**2                -1         6".
Definition b1861 : text := " 010004 PRESSURE                                                         PA                        -1            0  14 PA                       -1         5".
Definition b1862 : text := " 010007 HEIGHT                                                           M                          0        -1000  17 M                         0         6".
Definition b1863 : text := " 010008 GEOPOTENTIAL                                                     M**2/S**2                  0       -10000  20 M**2/S**2                 0         7".
Definition b1864 : text := " 010009 GEOPOTENTIAL HEIGHT                                              GPM                        0        -1000  17 GPM                       0         5".
Definition b1865 : text := " 010010 MINIMUM PRESSURE REDUCED TO MEAN SEA LEVEL                       PA                        -1            0  14 PA                       -1         5".
Definition b1866 : text := " 010011 MAXIMUM PRESSURE REDUCED TO MEAN SEA LEVEL                       PA                        -1            0  14 PA                       -1         5".
Definition b1867 : text := " 010031 IN DIRECTION OF THE NORTH POLE, DISTANCE FROM THE EARTH'S CENTRE M                          2  -1073741824  31 M                         2        10".
Definition b1868 : text := " 010032 SATELLITE DISTANCE TO EARTH'S CENTRE                             M                          1            0  27 M                         2         9".
Definition b1869 : text := " 010033 ALTITUDE (PLATFORM TO ELLIPSOID)                                 M                          1            0  27 M                         2         9".
Definition b1870 : text := " 010034 EARTH RADIUS                                                     M                          1            0  27 M                         2         9".
Definition b1871 : text := " 010035 EARTH'S LOCAL RADIUS OF CURVATURE                                M                          1     62000000  22 M                         1         8".
Definition b1872 : text := " 010036 GEOID UNDULATION (SEE NOTE 4)                                    M                          2       -15000  15 M                         2         6".
Definition b1873 : text := " 010040 NUMBER OF RETRIEVED LAYERS                                       NUMERIC                    0            0  10 NUMERIC                   0         4".
Definition b1874 : text := " 010050 STANDARD DEVIATION ALTITUDE                                      M                          2            0  16 M                         2         5".
Definition b1875 : text := " 010051 PRESSURE REDUCED TO MEAN SEA LEVEL                               PA                        -1            0  14 PA                       -1         5".
Definition b1876 : text := " 010052 ALTIMETER SETTING (QNH)                                          PA                        -1            0  14 PA                       -1         5".
Definition b1877 : text := " 010060 PRESSURE CHANGE                                                  PA                        -1        -1024  11 PA                       -1         4".
Definition b1878 : text := " 010061 3-HOUR PRESSURE CHANGE                                           PA                        -1         -500  10 PA                       -1         4".
Definition b1879 : text := " 010062 24-HOUR PRESSURE CHANGE                                          PA                        -1        -1000  11 PA                       -1         4".
Definition b1880 : text := " 010063 CHARACTERISTIC OF PRESSURE TENDENCY                              CODE TABLE 10063           0            0   4 CODE TABLE 10063          0         2".
Definition b1881 : text := " 010070 INDICATED AIRCRAFT ALTITUDE                                      M                          0         -400  16 M                         0         5".
Definition b1882 : text := " 010080 VIEWING ZENITH ANGLE                                             DEGREE                     2        -9000  15 DEGREE                    2         5".
Definition b1883 : text := " 010081 ALTITUDE OF COG ABOVE REFERENCE ELLIPSOID                        M                          3            0  31 M                         3        10".
Definition b1884 : text := " 010082 INSTANTANEOUS ALTITUDE RATE                                      MS-1                       3       -65536  17 MS-1                      3         6".
Definition b1885 : text := " 010083 SQUARED OFF NADIR ANGLE OF THE SATELLITE FROM PLATFORM DATA      DEGREE2                    2            0  16 DEGREE2                   2         5".
Definition b1886 : text := " 010084 SQUARED OFF NADIR ANGLE OF THE SATELLITE FROM WAVEFORM DATA      DEGREE2                    2            0  16 DEGREE2                   2         5".
Definition b1887 : text := " 010085 MEAN SEA SURFACE HEIGHT                                          M                          3      -131072  18 M                         3         6".
Definition b1888 : text := " 010086 GEOID'S HEIGHT                                                   M                          3      -131072  18 M                         3         6".
Definition b1889 : text := " 010087 OCEAN DEPTH/LAND ELEVATION                                       M                          1      -131072  18 M                         3         6".
Definition b1890 : text := " 010088 TOTAL GEOCENTRIC OCEAN TIDE HEIGHT SOLUTION 1                    M                          3       -32768  16 M                         3         5".
Definition b1891 : text := " 010089 TOTAL GEOCENTRIC OCEAN TIDE HEIGHT SOLUTION 2                    M                          3       -32768  16 M                         3         5".
Definition b1892 : text := " 010090 LONG PERIOD  TIDE HEIGHT                                         M                          3       -32768  16 M                         3         5".
Definition b1893 : text := " 010091 TIDAL LOADING HEIGHT                                             M                          3       -32768  16 M                         3         5".
Definition b1894 : text := " 010092 SOLID EARTH TIDE HEIGHT                                          M                          3       -32768  16 M                         3         5".
Definition b1895 : text := " 010093 GEOCENTRIC POLE TIDE HEIGHT                                      M                          3       -32768  16 M                         3         5".
Definition b1896 : text := " 010195 HEIGHT(HIGH ACCURACY)                                            M                          1        -4096  20 ".
Definition b1897 : text := " 010196 SOLAR ZENITH ANGLE                                               DEGREE                     2        -9000  15 ".
Definition b1898 : text := " 010197 ANEMOMETER HEIGHT                                                M                          0            0   9 ".
Definition b1899 : text := " 011001 WIND DIRECTION                                                   DEGREE TRUE                0            0   9 DEGREE TRUE               0         3".
Definition b1900 : text := " 011002 WIND SPEED                                                       M/S                        1            0  12 M/S                       1         4".
Definition b1901 : text := " 011003 U-COMPONENT                                                      M/S                        1        -4096  13 M/S                       1         4".
Definition b1902 : text := " 011004 V-COMPONENT                                                      M/S                        1        -4096  13 M/S                       1         4".
Definition b1903 : text := " 011005 W-COMPONENT                                                      PA/S                       1         -512  10 PA/S                      1         4".
Definition b1904 : text := " 011006 W-COMPONENT                                                      M/S                        2        -4096  13 M/S                       2         4".
Definition b1905 : text := " 011010 WIND DIRECTION ASSOCIATED WITH WIND SPEED WHICH FOLLOWS          DEGREE TRUE                0            0   9 DEGREE TRUE               0         3".
Definition b1906 : text := " 011011 WIND DIRECTION AT 10 M                                           DEGREE TRUE                0            0   9 DEGREE TRUE               0         3".
Definition b1907 : text := " 011012 WIND SPEED AT 10 M                                               M/S                        1            0  12 M/S                       1         4".
Definition b1908 : text := " 011013 WIND DIRECTION AT 5 M                                            DEGREE TRUE                0            0   9 DEGREE TRUE               0         3".
Definition b1909 : text := " 011014 WIND SPEED AT 5 M                                                M/S                        1            0  12 M/S                       1         4".
Definition b1910 : text := " 011016 EXTREME COUNTERCLOCKWISE WIND DIRECTION OF A VARIABLE WIND       DEGREE TRUE                0            0   9 DEGREE TRUE               0         3".
Definition b1911 : text := " 011017 EXTREME CLOCKWISE WIND DIRECTION OF A VARIABLE WIND              DEGREE TRUE                0            0   9 DEGREE TRUE               0         3".
Definition b1912 : text := " 011019 STEADINESS OF WIND (6)                                           %                          0            0   7 %                         0         3".
Definition b1913 : text := " 011021 RELATIVE VORTICITY                                               1/S                        9       -65536  17 1/S                       9         6".
Definition b1914 : text := " 011022 DIVERGENCE                                                       1/S                        9       -65536  17 1/S                       9         6".
Definition b1915 : text := " 011023 VELOCITY POTENTIAL                                               M**2/S                    -2       -65536  17 M**2/S                   -2         6".
Definition b1916 : text := " 011031 DEGREE OF TURBULENCE                                             CODE TABLE 11031           0            0   4 CODE TABLE 11031          0         2".
Definition b1917 : text := " 011032 HEIGHT OF BASE OF TURBULENCE                                     M                         -1          -40  16 M                        -1         5".
Definition b1918 : text := " 011033 HEIGHT OF TOP OF TURBULENCE                                      M                         -1          -40  16 M                        -1         5".
Definition b1919 : text := " 011034 VERTICAL GUST VELOCITY                                           M/S                        1        -1024  11 M/S                       1         4".
Definition b1920 : text := " 011035 VERTICAL GUST ACCELERATION                                       M/S**2                     2        -8192  14 M/S**2                    2         5".
Definition b1921 : text := " 011036 MAXIMUM DERIVED EQUIVALENT VERTICAL GUST SPEED                   M/S                        1            0  10 M/S                       1         4".
Definition b1922 : text := " 011037 TURBULENCE INDEX                                                 CODE TABLE 11037           0            0   6 CODE TABLE 11037          0         2".
Definition b1923 : text := " 011038 TIME OF OCCURRENCE OF PEAK EDDY DISSIPATION RATE                 CODE TABLE 11038           0            0   5 CODE TABLE 11038          0         2".
Definition b1924 : text := " 011039 EXTENDED TIME OF OCCURRENCE OF PEAK  EDDY DISSIPATION RATE       CODE TABLE 11039           0            0   6 CODE TABLE 11039          0         2".
Definition b1925 : text := " 011040 MAXIMUM WIND SPEED (MEAN WIND)                                   M/S                        1            0  12 M/S                       1         4".
Definition b1926 : text := " 011041 MAXIMUM WIND GUST SPEED                                          M/S                        1            0  12 M/S                       1         4".
Definition b1927 : text := " 011042 MAXIMUM WIND SPEED (10-MIN MEAN WIND)                            M/S                        1            0  12 M/S                       1         4".
Definition b1928 : text := " 011043 MAXIMUM WIND GUST DIRECTION                                      DEGREE TRUE                0            0   9 DEGREE TRUE               0         3".
Definition b1929 : text := " 011044 MEAN WIND DIRECTION FOR SURFACE - 1500 M (5000 FEET)             DEGREE TRUE                0            0   9 DEGREE TRUE               0         3".
Definition b1930 : text := " 011045 MEAN WIND SPEED FOR SURFACE - 1500 M (5000 FEET)                 M/S                        1            0  12 M/S                       1         4".
Definition b1931 : text := " 011046 MAXIMUM INSTANTANEOUS WIND SPEED                                 M/S                        1            0  12 M/S                       1         4".
Definition b1932 : text := " 011047 MAXIMUM INSTANTANEOUS WIND SPEED OVER 10 MINUTES                 M/S                        1            0  12 M/S                       1         4".
Definition b1933 : text := " 011049 STANDARD DEVIATION OF WIND DIRECTION                             DEGREE TRUE                0            0   9 DEGREE TRUE               0         3".
Definition b1934 : text := " 011050 STANDARD DEVIATION OF HORIZONTAL WIND SPEED                      M/S                        1            0  12 M/S                       1         4".
Definition b1935 : text := " 011051 STANDARD DEVIATION OF VERTICAL WIND SPEED                        M/S                        1            0   8 M/S                       1         3".
Definition b1936 : text := " 011052 FORMAL UNCERTAINTY IN WIND SPEED                                 M/S                        2            0  13 M/S                       2         5".
Definition b1937 : text := " 011053 FORMAL UNCERTAINTY IN WIND DIRECTION                             DEGREE TRUE                2            0  15 DEGREE TRUE               2         5".
Definition b1938 : text := " 011061 ABSOLUTE WIND SHEAR IN 1 KM LAYER BELOW                          M/S                        1            0  12 M/S                       1         4".
Definition b1939 : text := " 011062 ABSOLUTE WIND SHEAR IN 1 KM LAYER ABOVE                          M/S                        1            0  12 M/S                       1         4".
Definition b1940 : text := " 011070 DESIGNATOR OF THE RUNWAY AFFECTED BY WIND SHEAR (INCLUDING ALL)  CCITTIA5                   0            0  32 CHARACTER                 0         4".
Definition b1941 : text := " 011071 TURBULENT VERTICAL MOMENTUM FLUX                                 M**2/S**2                  3         -128  14 M**2/S**2                 3         5".
Definition b1942 : text := " 011072 TURBULENT VERTICAL BUOYANCY FLUX                                 KM/S                       3         -128  11 KM/S                      3         4".
Definition b1943 : text := " 011073 TURBULENT KINETIC ENERGY                                         M**2/S**2                  2        -1024  13 M**2/S**2                 2         4".
Definition b1944 : text := " 011074 DISSIPATION ENERGY                                               M**2/S**2                  2        -1024  10 M**2/S**2                 2         4".
Definition b1945 : text := " 011075 MEAN TURBULENCE INTENSITY (EDDY DISSIPATION RATE)                M**(2/3)/S                 2            0   8 M**(2/3)/S                2         3".
Definition b1946 : text := " 011076 PEAK TURBULENCE INTENSITY (EDDY DISSIPATION RATE)                M**(2/3)/S                 2            0   8 M**(2/3)/S                2         3".
Definition b1947 : text := " 011077 REPORTING INTERVAL OR AVERAGING TIME FOR EDDY DISSIPATION RATE   S                          0            0  12 S                         0         4".
Definition b1948 : text := " 011081 MODEL WIND DIRECTION AT 10M                                      DEGREE TRUE                2            0  16 DEGREE TRUE               2         5".
Definition b1949 : text := " 011082 MODEL WIND SPEED AT 10M                                          M/S                        2            0  14 M/S                       2         4".
Definition b1950 : text := " 011095 U COMPONENT OF THE MODEL WIND VECTOR                             M/S                        1        -4096  13 M/S                       1         4".
Definition b1951 : text := " 011096 V COMPONENT OF THE MODEL WIND VECTOR                             M/S                        1        -4096  13 M/S                       1         4".
Definition b1952 : text := " 011192 U - COMPONENT AT 10 M                                            M/S                        1        -4096  13 M/S                       1         4^".
Definition b1953 : text := " 011193 V - COMPONENT AT 10 M                                            M/S                        1        -4096  13 M/S                       1         4^M".
Definition b1954 : text := " 011194 W - COMPONENT AT 10 M                                            M/S                        1        -4096  13 M/S                       1         4^M".
Definition b1955 : text := " 011195 STEADINESS OF WIND                                               %                          0            0   7 %                         0         3".
Definition b1956 : text := " 011196 FRICTION VELOCITY                                                M/S                        5            0  19 ".
Definition b1957 : text := " 011201 HORIZONTAL LINE OF SIGHT COMPONENT                               M/S                        1        -4096  13 ".
Definition b1958 : text := " 011210 1D VAR WIND SPEED RETREIVED ERRO(S)                              M/S                        2            0  12 ".
Definition b1959 : text := " 011211 WIND SPEED INDEPENDENT ESTIMATE OF ERROR(S)                      M/S                        2            0  12 ".
Definition b1960 : text := " 011220 FORMAL UNCERTAINTY IN WIND SPEED                                 M/S                        2            0  12 ".
Definition b1961 : text := " 011221 FORMAL UNCERTAINTY IN WIND DIRECTION                             DEGREE TRUE                2            0  15 ".
Definition b1962 : text := " 011230 MAXIMUM MEAN WIND SPEED                                          M/S                        1        -4096  13 M/S                       1         4^M".
Definition b1963 : text := " 011231 MEAN WIND SPEED                                                  M/S                        1        -4096  13 M/S                       1         4^M".
Definition b1964 : text := " 011232 MINIMUM MEAN WIND SPEED                                          M/S                        1        -4096  13 M/S                       1         4^M".
Definition b1965 : text := " 011233 HIGHEST GUST DURING THE 10 MINUTE PERIOD PRECEDING OBSERVATION   M/S                        1        -4096  13 M/S                       1         4^M".
Definition b1966 : text := " 012001 TEMPERATURE/DRY-BULB TEMPERATURE                                 K                          1            0  12 C                         1         3".
Definition b1967 : text := " 012002 WET-BULB TEMPERATURE                                             K                          1            0  12 C                         1         3".
Definition b1968 : text := " 012003 DEW-POINT TEMPERATURE                                            K                          1            0  12 C                         1         3".
Definition b1969 : text := " 012004 DRY-BULB TEMPERATURE AT 2 M                                      K                          1            0  12 C                         1         3".
Definition b1970 : text := " 012005 WET-BULB TEMPERATURE AT 2 M                                      K                          1            0  12 C                         1         3".
Definition b1971 : text := " 012006 DEW-POINT TEMPERATURE AT 2 M                                     K                          1            0  12 C                         1         3".
Definition b1972 : text := " 012007 VIRTUAL TEMPERATURE                                              K                          1            0  12 C                         1         3".
Definition b1973 : text := " 012011 MAXIMUM TEMPERATURE, AT HEIGHT AND OVER PERIOD SPECIFIED         K                          1            0  12 C                         1         3".
Definition b1974 : text := " 012012 MINIMUM TEMPERATURE, AT HEIGHT AND OVER PERIOD SPECIFIED         K                          1            0  12 C                         1         3".
Definition b1975 : text := " 012013 GROUND MINIMUM TEMPERATURE, PAST 12 HOURS                        K                          1            0  12 C                         1         3".
Definition b1976 : text := " 012014 MAXIMUM TEMPERATURE AT 2 M, PAST 12 HOURS                        K                          1            0  12 C                         1         3".
Definition b1977 : text := " 012015 MINIMUM TEMPERATURE AT 2 M, PAST 12 HOURS                        K                          1            0  12 C                         1         3".
Definition b1978 : text := " 012016 MAXIMUM TEMPERATURE AT 2 M, PAST 24 HOURS                        K                          1            0  12 C                         1         3".
Definition b1979 : text := " 012017 MINIMUM TEMPERATURE AT 2 M, PAST 24 HOURS                        K                          1            0  12 C                         1         3".
Definition b1980 : text := " 012021 MAXIMUM TEMPERATURE AT 2M                                        K                          2            0  16 C                         2         4".
Definition b1981 : text := " 012022 MINIMUM TEMPERATURE AT 2M                                        K                          2            0  16 C                         2         4".
Definition b1982 : text := " 012030 SOIL TEMPERATURE                                                 K                          1            0  12 C                         1         3".
Definition b1983 : text := " 012051 STANDARD DEVIATION TEMPERATURE                                   K                          1            0  10 C                         1         3".
Definition b1984 : text := " 012052 HIGHEST DAILY MEAN TEMPERATURE                                   K                          1            0  12 C                         1         3".
Definition b1985 : text := " 012053 LOWEST DAILY MEAN TEMPERATURE                                    K                          1            0  12 C                         1         3".
Definition b1986 : text := " 012061 SKIN TEMPERATURE                                                 K                          1            0  12 C                         1         3".
Definition b1987 : text := " 012062 EQUIVALENT BLACK BODY TEMPERATURE                                K                          1            0  12 C                         1         3".
Definition b1988 : text := " 012063 BRIGHTNESS TEMPERATURE                                           K                          1            0  12 C                         1         3".
Definition b1989 : text := " 012064 INSTRUMENT TEMPERATURE                                           K                          1            0  12 K                         1         4".
Definition b1990 : text := " 012065 STANDARD DEVIATION BRIGHTNESS TEMPERATURE                        K                          1            0  12 K                         1         4".
Definition b1991 : text := " 012070 WARM LOAD TEMPERATURE                                            K                          2            0  16 K                         2         5".
Definition b1992 : text := " 012071 COLDEST CLUSTER TEMPERATURE                                      K                          1            0  12 K                         1         4".
Definition b1993 : text := " 012072 RADIANCE                                                         WM**(-2)SR**(-1)           6            0  31 WM**(-2)SR**(-1)          6         9".
Definition b1994 : text := " 012075 SPECTRAL RADIANCE                                                WM**(-3)SR**(-1)          -3            0  16 WM**(-3)SR**(-1)         -3         5".
Definition b1995 : text := " 012076 RADIANCE                                                         WM**(-2)SR**(-1)           3            0  16 WM**(-2)SR**(-1)          3         5".
Definition b1996 : text := " 012101 TEMPERATURE/DRY-BULB TEMPERATURE                                 K                          2            0  16 C                         2         4".
Definition b1997 : text := " 012102 WET-BULB TEMPERATURE                                             K                          2            0  16 C                         2         4".
Definition b1998 : text := " 012103 DEW-POINT TEMPERATURE                                            K                          2            0  16 C                         2         4".
Definition b1999 : text := " 012104 DRY-BULB TEMPERATURE AT 2M                                       K                          2            0  16 C                         2         4".
Definition b2000 : text := " 012105 WEB-BULB TEMPERATURE AT 2M                                       K                          2            0  16 C                         2         4".
Definition b2001 : text := " 012106 DEW-POINT TEMPERATURE AT 2M                                      K                          2            0  16 C                         2         4".
Definition b2002 : text := " 012107 VIRTUAL TEMPERATURE                                              K                          2            0  16 C                         2         4".
Definition b2003 : text := " 012111 MAXIMUM TEMPERATURE, AT HEIGHT AND OVER PERIOD SPECIFIED         K                          2            0  16 C                         2         4".
Definition b2004 : text := " 012112 MINIMUM TEMPERATURE, AT HEIGHT AND OVER PERIOD SPECIFIED         K                          2            0  16 C                         2         4".
Definition b2005 : text := " 012113 GROUND MINIMUM TEMPERATURE, PAST 12 HOURS                        K                          2            0  16 C                         2         4".
Definition b2006 : text := " 012114 MAXIMUM TEMPERATURE AT 2M, PAST 12 HOURS                         K                          2            0  16 C                         2         4".
Definition b2007 : text := " 012115 MINIMUM TEMPERATURE AT 2M, PAST 12 HOURS                         K                          2            0  16 C                         2         4".
Definition b2008 : text := " 012116 MAXIMUM TEMPERATURE AT 2M, PAST 24 HOURS                         K                          2            0  16 C                         2         4".
Definition b2009 : text := " 012117 MINIMUM TEMPERATURE AT 2M, PAST 24 HOURS                         K                          2            0  16 C                         2         4".
Definition b2010 : text := " 012118 MAXIMUM TEMPERATURE AT HEIGHT SPECIFIED, PAST 24 HOURS           K                          2            0  16 C                         2         4".
Definition b2011 : text := " 012119 MINIMUM  TEMPERATURE AT HEIGHT SPECIFIED, PAST 24 HOURS          K                          2            0  16 C                         2         4".
Definition b2012 : text := " 012130 SOIL TEMPERATURE                                                 K                          2            0  16 C                         2         4".
Definition b2013 : text := " 012151 STANDARD DEVIATION OF DAILY MEAN TEMPERATURE                     K                          2            0  12 C                         2         4".
Definition b2014 : text := " 012152 HIGHEST DAILY MEAN TEMPERATURE                                   K                          2            0  16 C                         2         4".
Definition b2015 : text := " 012153 LOWEST DAILY MEAN TEMPERATURE                                    K                          2            0  16 C                         2         4".
Definition b2016 : text := " 012161 SKIN TEMPERATURE                                                 K                          2            0  16 C                         2         4".
Definition b2017 : text := " 012162 EQUIVALENT BLACK BODY TEMPERATURE                                K                          2            0  16 C                         2         4".
Definition b2018 : text := " 012163 BRIGHTNESS TEMPERATURE                                           K                          2            0  16 C                         2         4".
Definition b2019 : text := " 012164 INSTRUMENT TEMPERATURE                                           K                          2            0  16 K                         2         5".
Definition b2020 : text := " 012171 COLDEST CLUSTER TEMPERATURE                                      K                          2            0  16 K                         2         5".
Definition b2021 : text := " 012180 AVERAGED 12 MICRON BT FOR ALL CLEAR PIXELS AT NADIR              K                          2            0  16 K                         2         5".
Definition b2022 : text := " 012181 AVERAGED 11 MICRON BT FOR ALL CLEAR PIXELS AT NADIR              K                          2            0  16 K                         2         5".
Definition b2023 : text := " 012182 AVERAGED 3.7 MICRON BT FOR ALL CLEAR PIXELS AT NADIR             K                          2            0  16 K                         2         5".
Definition b2024 : text := " 012183 AVERAGED 12 MICRON BT FOR ALL CLEAR PIXELS, FORWARD VIEW         K                          2            0  16 K                         2         5".
Definition b2025 : text := " 012184 AVERAGED 11 MICRON BT FOR ALL CLEAR PIXELS, FORWARD VIEW         K                          2            0  16 K                         2         5".
Definition b2026 : text := " 012185 AVERAGED 3.7 MICRON BT FOR ALL CLEAR PIXELS, FORWARD VIEW        K                          2            0  16 K                         2         5".
Definition b2027 : text := " 012186 MEAN NADIR SEA SURFACE TEMPERATURE                               K                          2            0  16 K                         2         5".
Definition b2028 : text := " 012187 MEAN DUAL VIEW SEA SURFACE TEMPERATURE                           K                          2            0  16 K                         2         5".
Definition b2029 : text := " 012188 INTERPOLATED 23.8 GHZ BRIGHTNESS T FROM MWR                      K                          2            0  16 K                         2         5".
Definition b2030 : text := " 012189 INTERPOLATED 36.5 GHZ BRIGHTNESS T FROM MWR                      K                          2            0  16 K                         2         5".
Definition b2031 : text := " 012193 COLDEST CLUSTER TEMPERATURE                                      K                          1            0  12 ".
Definition b2032 : text := " 012194 RADIANCE                                                         W/M**2*STER*M**(-1)        6            0  31 ".
Definition b2033 : text := " 012195 SPECTRAL RADIANCE                                                W/M**2*STER*M**(-1)       10            0  31 ".
Definition b2034 : text := " 012196 RADIANCE                                                         W/M**2*STER                3            0  16 ".
Definition b2035 : text := " 012197 MAXIMUM TEMPERATURE AT 2M, PAST  3 HOURS                         K                          1            0  12 ".
Definition b2036 : text := " 012198 MINIMUM TEMPERATURE AT 2M, PAST  3 HOURS                         K                          1            0  12 ".
Definition b2037 : text := " 012199 MAXIMUM TEMPERATURE AT 2M, PAST  6 HOURS                         K                          1            0  12 ".
Definition b2038 : text := " 012200 MINIMUM TEMPERATURE AT 2M, PAST  6 HOURS                         K                          1            0  12 ".
Definition b2039 : text := " 013098 INTEGRATED WATER VAPOUR DENSITY                                  KG/M**2                    8            0  30 KG/M**2                   8        10  ".
Definition b2040 : text := " 013193 RELATIVE HUMIDITY                                                %                          0            0   8 ".
Definition b2041 : text := " 013194 TOTAL COLUMN WATER                                               KG/M**2                    2            0  11 ".
Definition b2042 : text := " 013195 RAIN RATE                                                        KG/M**2HOUR                0            0   5 ".
Definition b2043 : text := " 013196 ANTECEDENT PRECIPITATION INDEX                                   KG/M**2                    0            0   7 ".
Definition b2044 : text := " 013197 TOTAL COLUMN WATER VAPOUR                                        KG/M**2                    1            0  10 ".
Definition b2045 : text := " 013198 RAIN FLAG                                                        CODE TABLE 13198           0            0   3 ".
Definition b2046 : text := " 013199 SPECIFIC HUMIDITY AT 2 M                                         KG/KG                      5            0  14 ".
Definition b2047 : text := " 013201 CLOUD LIQUID WATER                                               KG/KG                      7            0  14 ".
Definition b2048 : text := " 013202 TYPE OF SURFACE                                                  CODE TABLE 13202           0            0   8 ".
Definition b2049 : text := " 013203 1D VAR ESTIMATE OF RAIN RATE                                     KG/M**2*HOUR               2            0  12 ".
Definition b2050 : text := " 013204 SSMI INDEPENDENT ESTIMATE OF RAIN RATE                           KG/M**2*HOUR               2            0  12 ".
Definition b2051 : text := " 013205 CLOUD LIQUID WATER PATH                                          KG/M**2                    4            0  14 ".
Definition b2052 : text := " 013206 TOTAL PRECIPITATION ICE CONTENT                                  KG/M**2                    6            0  14 ".
Definition b2053 : text := " 013207 TOTAL CLOUD LIQUID WATER                                         KG/M**2                    6            0  14 ".
Definition b2054 : text := " 013208 SURFACE RAIN RATE ( INSTANTANEOUS )                              KG/M**2*S                  5            0  17 ".
Definition b2055 : text := " 013209 RAIN POSSIBILITY                                                 NUMERIC                    0         -256   9 ".
Definition b2056 : text := " 013210 1D VAR CLOUD LIQUID WATER PATH RETRIEVED ERROR(S)                KG/M**2                    4            0  14 ".
Definition b2057 : text := " 013211 TOTAL PRECIPITABLE WATER INDIPENDENT ESTIMATE OF ERROR(S)        KG/M**2                    2            0  11 ".
Definition b2058 : text := " 013212 CLOUD LIQUID WATER PATH INDIPENDENT ESTIMATE OF ERROR(S)         KG/M**2                    4            0  14 ".
Definition b2059 : text := " 013230 CONVECTIVE PRECIPITATION                                         KG/M**2                    1           -1  14 ".
Definition b2060 : text := " 013231 LARGE SCALE PRECIPITATION                                        KG/M**2                    1           -1  14 ".
Definition b2061 : text := " 013240 AIR DENSITY                                                      KG/M**3                    3            0  10 ".
Definition b2062 : text := " 013241 CONVECTIVE AVAILABLE POTENTIAL ENERGY                            J/KG                       1            0  17 ".
Definition b2063 : text := " 014001 LONG-WAVE RADIATION, INTEGRATED OVER 24 HOURS                    J/M**2                    -3        -2048  12 J/M**2                   -3         4".
Definition b2064 : text := " 014002 LONG-WAVE RADIATION, INTEGRATED OVER PERIOD SPECIFIED            J/M**2                    -3        -2048  12 J/M**2                   -3         4".
Definition b2065 : text := " 014003 SHORT-WAVE RADIATION, INTEGRATED OVER 24 HOURS                   J/M**2                    -3        -2048  12 J/M**2                   -3         4".
Definition b2066 : text := " 014004 SHORT-WAVE RADIATION, INTEGRATED OVER PERIOD SPECIFIED           J/M**2                    -3        -2048  12 J/M**2                   -3         4".
Definition b2067 : text := " 014011 NET LONG-WAVE RADIATION, INTEGRATED OVER 24 HOURS                J/M**2                    -3        -2048  12 J/M**2                   -3         4".
Definition b2068 : text := " 014012 NET LONG-WAVE RADIATION, INTEGRATED OVER PERIOD SPECIFIED        J/M**2                    -3        -2048  12 J/M**2                   -3         4".
Definition b2069 : text := " 014013 NET SHORT-WAVE RADIATION, INTEGRATED OVER 24 HOURS               J/M**2                    -3        -2048  12 J/M**2                   -3         4".
Definition b2070 : text := " 014014 NET SHORT-WAVE RADIATION, INTEGRATED OVER PERIOD SPECIFIED       J/M**2                    -3        -2048  12 J/M**2                   -3         4".
Definition b2071 : text := " 014015 NET RADIATION, INTEGRATED OVER 24 HOURS                          J/M**2                    -4       -16384  15 J/M**2                   -4         5".
Definition b2072 : text := " 014016 NET RADIATION, INTEGRATED OVER PERIOD SPECIFIED                  J/M**2                    -4       -16384  15 J/M**2                   -4         5".
Definition b2073 : text := " 014017 INSTANTANEOUS LONG-WAVE RADIATION (SEE NOTE 6)                   W/M**2                    -3        -2048  12 W/M**2                   -3         4".
Definition b2074 : text := " 014018 INSTANTANEOUS SHORT-WAVE RADIATION (SEE NOTE 6)                  W/M**2                    -3        -2048  12 W/M**2                   -3         4".
Definition b2075 : text := " 014019 SURFACE ALBEDO                                                   %                          0            0   7 %                         0         3".
Definition b2076 : text := " 014020 GLOBAL SOLAR RADIATION, INTEGRATED OVER 24 HOURS                 J/M**2                    -4            0  15 J/M**2                   -4         5".
Definition b2077 : text := " 014021 GLOBAL SOLAR RADIATION, INTEGRATED OVER PERIOD SPECIFIED         J/M**2                    -4            0  15 J/M**2                   -4         5".
Definition b2078 : text := " 014022 DIFFUSE SOLAR RADIATION, INTEGRATED OVER 24 HOURS                J/M**2                    -4            0  15 J/M**2                   -4         5".
Definition b2079 : text := " 014023 DIFFUSE SOLAR RADIATION, INTEGRATED OVER PERIOD SPECIFIED        J/M**2                    -4            0  15 J/M**2                   -4         5".
Definition b2080 : text := " 014024 DIRECT SOLAR RADIATION, INTEGRATED OVER 24 HOURS                 J/M**2                    -4            0  15 J/M**2                   -4         5".
Definition b2081 : text := " 014025 DIRECT SOLAR RADIATION, INTEGRATED OVER PERIOD SPECIFIED         J/M**2                    -4            0  15 J/M**2                   -4         5".
Definition b2082 : text := " 014026 ALBEDO AT THE TOP OF CLOUDS                                      %                          0            0   7 %                         0         3".
Definition b2083 : text := " 014027 ALBEDO                                                           %                          0            0   7 %                         0         3".
Definition b2084 : text := " 014028 GLOBAL SOLAR RADIATION (HIGH ACCURACY), INTEGRATED OVER PERIOD S J/M**2                    -2            0  16 J/M**2                   -2         5".
Definition b2085 : text := " 014029 DIFFUSE SOLAR RADIATION (HIGH ACCURACY), INTEGRATED OVER PERIOD  J/M**2                    -2            0  16 J/M**2                   -2         5".
Definition b2086 : text := " 014030 DIRECT SOLAR RADIATION (HIGH ACCURACY), INTEGRATED OVER PERIOD S J/M**2                    -2            0  16 J/M**2                   -2         5".
Definition b2087 : text := " 014031 TOTAL SUNSHINE                                                   MINUTE                     0            0  11 MINUTE                    0         4".
Definition b2088 : text := " 014032 TOTAL SUNSHINE                                                   HOUR                       0            0  10 HOUR                      0         4".
Definition b2089 : text := " 014033 TOTAL SUNSHINE                                                   %                          0            0   9 %                         0         3".
Definition b2090 : text := " 014034 SUNSHINE OVER PERIOD SPECIFIED                                   MINUTE                     0            0  11 MINUTE                    0         4".
Definition b2091 : text := " 014042 BI-DIRECTIONAL REFLECTANCE                                       %                          0            0   7 %                         0         3".
Definition b2092 : text := " 014045 CHANNEL RADIANCE                                                 (W/M**2)*(1/SR)*CM         0            0  11 WM-2SR-1CM-1              0         4".
Definition b2093 : text := " 014046 SCALED IASI RADIANCE                                             (W/M**2)*(1/SR)*(1/M)      0        -5000  16 (W/M**2)*(1/SR)*(1/M)     0         5".
Definition b2094 : text := " 014050 EMISSIVITY (SEE NOTE 5)                                          %                          1            0  10 %                         1         4".
Definition b2095 : text := " 014051 DIRECT SOLAR RADIATION INTEGRATED OVER LAST HOUR                 J/M**2                    -3            0  14 JM-2                     -3         4".
Definition b2096 : text := " 014055 SOLAR ACTIVITY INDEX                                             NUMERIC                    0       -32768  16 NUMERIC                   0         5".
Definition b2097 : text := " 015001 TOTAL OZONE                                                      DU                         0            0  10 DU                        0         4".
Definition b2098 : text := " 015002 AIR MASS (SLANT PATH AT 22 KM)                                   NUMERIC                    2            0  10 NUMERIC                   2         3".
Definition b2099 : text := " 015003 MEASURED OZONE PARTIAL PRESSURE (SOUNDING)                       PA                         4            0   9 NBAR                      0         3".
Definition b2100 : text := " 015004 OZONE SOUNDING CORRECTION FACTOR                                 NUMERIC                    3            0  11 NUMERIC                   3         4".
Definition b2101 : text := " 015005 OZONE P                                                          DU                         0            0  10 DU                        0         3".
Definition b2102 : text := " 015011 LOG 10 OF INTEGRATED ELECTRON DENSITY                            LOG (1/M2)                 3        14000  13 LOG (M-2)                 3         4".
Definition b2103 : text := " 015015 MAXIMUM IMAGE SPECTRAL COMPONENT BEFORE NORMALIZATION            NUMERIC                    0            0  31 NUMERIC                   0        10".
Definition b2104 : text := " 015020 INTEGRATED 03 DENSITY                                            KG/M**2                    8            0  21 KG/M**2                   8         7".
Definition b2105 : text := " 015025 TYPE OF POLLUTANT                                                CODE TABLE 15025           0            0   4 CODE TABLE 15025          0         2".
Definition b2106 : text := " 015026 CONCENTRATION OF POLLUTANT                                       MOLMOL-1                   9            0   9 MOLMOL-1                  9         3".
Definition b2107 : text := " 015031 ATMOSPHERIC PATH DELAY IN SATELLITE SIGNAL                       M                          4        10000  15 M                         4         5".
Definition b2108 : text := " 015032 ESTIMATED ERROR IN ATMOSPHERIC PATH DELAY                        M                          4            0  10 M                         4         4".
Definition b2109 : text := " 015033 DIFFERENCE IN PATH DELAYS FOR LIMB VIEWS AT EXTREMES OF SCAN     M                          5       -10000  15 M                         5         5".
Definition b2110 : text := " 015034 ESTIMATED ERROR IN PATH DELAY DIFFERENCE                         M                          5            0  14 M                         5         5".
Definition b2111 : text := " 015035 COMPONENT OF ZENITH PATH DELAY DUE TO WATER VAPOUR               M                          4            0  14 M                         4         5".
Definition b2112 : text := " 015036 ATMOSPHERIC REFRACTIVITY (SEE NOTE 5)                            N-UNITS                    3            0  19 N-UNITS                   3         6".
Definition b2113 : text := " 015037 BENDING ANGLE                                                    RADIANS                    8      -100000  23 RADIANS                   8         7".
Definition b2114 : text := " 015202 INTEGRATED ELECTRON DENSITY                                      1/M**2                     3        13000  12 ".
Definition b2115 : text := " 019001 TYPE OF SYNOPTIC FEATURE                                         CODE TABLE 19001           0            0   6 CODE TABLE 19001          0         2".
Definition b2116 : text := " 019002 EFFECTIVE RADIUS OF FEATURE                                      M                         -2            0  12 M                        -2         4".
Definition b2117 : text := " 019003 WIND SPEED THRESHOLD                                             M/S                        0            0   8 M/S                       0         3".
Definition b2118 : text := " 019004 EFFECTIVE RADIUS WITH RESPECT TO WIND SPEEDS ABOVE THRESHOLD     M                         -2            0  12 M                        -2         4".
Definition b2119 : text := " 019005 DIRECTION OF MOTION OF FEATURE                                   DEGREE TRUE                0            0   9 DEGREE TRUE               0         3".
Definition b2120 : text := " 019006 SPEED OF MOTION OF FEATURE                                       M/S                        2            0  14 M/S                       2         5".
Definition b2121 : text := " 019007 EFFECTIVE RADIUS OF FEATURE                                      M                         -3            0  12 M                        -3         4".
Definition b2122 : text := " 019008 VERTICAL EXTENT OF CIRCULATION                                   CODE TABLE 19008           0            0   3 CODE TABLE 19008          0         1".
Definition b2123 : text := " 019009 EFFECTIVE RADIUS WITH RESPECT TO WIND SPEEDS ABOVE THRESHOLD (LA M                         -3            0  12 M                        -3         4".
Definition b2124 : text := " 019010 METHOD FOR TRACKING THE CENTRE OF SYNOPTIC FEATURE               CODE TABLE 19010           0            0   4 CODE TABLE 19010          0         2".
Definition b2125 : text := " 020001 HORIZONTAL VISIBILITY                                            M                         -1            0  13 M                        -1         4".
Definition b2126 : text := " 020002 VERTICAL VISIBILITY                                              M                         -1            0   7 M                        -1         3".
Definition b2127 : text := " 020003 PRESENT WEATHER (SEE NOTE 1)                                     CODE TABLE 20003           0            0   9 CODE TABLE 20003          0         3".
Definition b2128 : text := " 020004 PAST WEATHER (1) (SEE NOTE 2)                                    CODE TABLE 20004           0            0   5 CODE TABLE 20004          0         2".
Definition b2129 : text := " 020005 PAST WEATHER (2) (SEE NOTE 2)                                    CODE TABLE 20005           0            0   5 CODE TABLE 20005          0         2".
Definition b2130 : text := " 020008 CLOUD DISTRIBUTION FOR AVIATION                                  CODE TABLE 20008           0            0   5 CODE TABLE 20008          0         2".
Definition b2131 : text := " 020009 GENERAL WEATHER INDICATOR (TAF/METAR)                            CODE TABLE 20009           0            0   4 CODE TABLE 20009          0         2".
Definition b2132 : text := " 020010 CLOUD COVER (TOTAL)                                              %                          0            0   7 %                         0         3".
Definition b2133 : text := " 020011 CLOUD AMOUNT                                                     CODE TABLE 20011           0            0   4 CODE TABLE 20011          0         2".
Definition b2134 : text := " 020012 CLOUD TYPE                                                       CODE TABLE 20012           0            0   6 CODE TABLE 20012          0         2".
Definition b2135 : text := " 020013 HEIGHT OF BASE OF CLOUD                                          M                         -1          -40  11 M                        -1         4".
Definition b2136 : text := " 020014 HEIGHT OF TOP OF CLOUD                                           M                         -1          -40  11 M                        -1         4".
Definition b2137 : text := " 020015 PRESSURE AT BASE OF CLOUD                                        PA                        -1            0  14 PA                       -1         5".
Definition b2138 : text := " 020016 PRESSURE AT TOP OF CLOUD                                         PA                        -1            0  14 PA                       -1         5".
Definition b2139 : text := " 020017 CLOUD TOP DESCRIPTION                                            CODE TABLE 20017           0            0   4 CODE TABLE 20017          0         2".
Definition b2140 : text := " 020018 TENDENCY OF RUNWAY VISUAL RANGE                                  CODE TABLE 20018           0            0   2 CODE TABLE 20018          0         1".
Definition b2141 : text := " 020019 SIGNIFICANT PRESENT OR FORECAST WEATHER                          CCITTIA5                   0            0  72 CHARACTER                 0         9".
Definition b2142 : text := " 020020 SIGNIFICANT RECENT WEATHER PHENOMENA                             CCITTIA5                   0            0  32 CHARACTER                 0         4".
Definition b2143 : text := " 020021 TYPE OF PRECIPITATION                                            FLAG TABLE 20021           0            0  30 FLAG TABLE 20021          0        10".
Definition b2144 : text := " 020022 CHARACTER OF PRECIPITATION                                       CODE TABLE 20022           0            0   4 CODE TABLE 20022          0         2".
Definition b2145 : text := " 020023 OTHER WEATHER PHENOMENA                                          FLAG TABLE 20023           0            0  18 FLAG TABLE 20023          0         6".
Definition b2146 : text := " 020024 INTENSITY OF PHENOMENA                                           CODE TABLE 20024           0            0   3 CODE TABLE 20024          0         1".
Definition b2147 : text := " 020025 OBSCURATION                                                      FLAG TABLE 20025           0            0  21 FLAG TABLE 20025          0         7".
Definition b2148 : text := " 020026 CHARACTER OF OBSCURATION                                         CODE TABLE 20026           0            0   4 CODE TABLE 20026          0         2".
Definition b2149 : text := " 020027 PHENOMENA OCCURRENCE                                             FLAG TABLE 20027           0            0   9 FLAG TABLE 20027          0         3".
Definition b2150 : text := " 020029 RAIN FLAG                                                        CODE TABLE 20029           0            0   2 CODE TABLE 20029          0         1".
Definition b2151 : text := " 020031 ICE DEPOSIT (THICKNESS)                                          M                          2            0   7 M                         2         3".
Definition b2152 : text := " 020032 RATE OF ICE ACCRETION                                            CODE TABLE 20032           0            0   3 CODE TABLE 20032          0         1".
Definition b2153 : text := " 020033 CAUSE OF ICE ACCRETION                                           FLAG TABLE 20033           0            0   4 FLAG TABLE 20033          0         2".
Definition b2154 : text := " 020034 SEA ICE CONCENTRATION                                            CODE TABLE 20034           0            0   5 CODE TABLE 20034          0         2".
Definition b2155 : text := " 020035 AMOUNT AND TYPE OF ICE                                           CODE TABLE 20035           0            0   4 CODE TABLE 20035          0         2".
Definition b2156 : text := " 020036 ICE SITUATION                                                    CODE TABLE 20036           0            0   5 CODE TABLE 20036          0         2".
Definition b2157 : text := " 020037 ICE DEVELOPMENT                                                  CODE TABLE 20037           0            0   5 CODE TABLE 20037          0         2".
Definition b2158 : text := " 020038 BEARING OF ICE EDGE (SEE NOTE 3)                                 DEGREE TRUE                0            0  12 DEGREE TRUE               0         3".
Definition b2159 : text := " 020039 ICE DISTANCE                                                     M                         -1            0  13 M                        -1         4".
Definition b2160 : text := " 020041 AIRFRAME ICING                                                   CODE TABLE 20041           0            0   4 CODE TABLE 20041          0         2".
Definition b2161 : text := " 020042 AIRFRAME ICING PRESENT                                           CODE TABLE 20042           0            0   2 CODE TABLE 20042          0         1".
Definition b2162 : text := " 020043 PEAK LIQUID WATER CONTENT                                        KG/M**3                    4            0   7 KG/M**3                   4         2".
Definition b2163 : text := " 020044 AVERAGE LIQUID WATER CONTENT                                     KG/M**3                    4            0   7 KG/M**3                   4         2".
Definition b2164 : text := " 020045 SUPERCOOLED LARGE DROPLET (SLD) CONDITIONS                       CODE TABLE 20045           0            0   2 CODE TABLE 20045          0         2".
Definition b2165 : text := " 020050 CLOUD INDEX                                                      CODE TABLE 20050           0            0   8 CODE TABLE 20050          0         3".
Definition b2166 : text := " 020051 AMOUNT OF LOW CLOUDS                                             %                          0            0   7 %                         0         3".
Definition b2167 : text := " 020052 AMOUNT OF MIDDLE CLOUDS                                          %                          0            0   7 %                         0         3".
Definition b2168 : text := " 020053 AMOUNT OF HIGH CLOUDS                                            %                          0            0   7 %                         0         3".
Definition b2169 : text := " 020056 CLOUD PHASE                                                      CODE TABLE 20056           0            0   3 CODE TABLE 20056          0         1".
Definition b2170 : text := " 020061 RUNWAY VISUAL RANGE (RVR)                                        M                          0            0  12 M                         0         4".
Definition b2171 : text := " 020062 STATE OF THE GROUND (WITH OR WITHOUT SNOW)                       CODE TABLE 20062           0            0   5 CODE TABLE 20062          0         2".
Definition b2172 : text := " 020063 SPECIAL PHENOMENA                                                CODE TABLE 20063           0            0  10 CODE TABLE 20063          0         4".
Definition b2173 : text := " 020065 SNOW COVER (SEE NOTE 4)                                          %                          0            0   7 %                         0         3".
Definition b2174 : text := " 020070 MINIMUM NUMBER OF ATMOSPHERICS                                   NUMERIC                    0            0   7 NUMERIC                   0         3".
Definition b2175 : text := " 020071 ACCURACY OF FIX AND RATE OF ATMOSPHERICS                         CODE TABLE 20071           0            0   4 CODE TABLE 20071          0         2".
Definition b2176 : text := " 020081 CLOUD AMOUNT IN SEGMENT                                          %                          0            0   7 %                         0         3".
Definition b2177 : text := " 020082 AMOUNT SEGMENT CLOUD FREE                                        %                          0            0   7 %                         0         3".
Definition b2178 : text := " 020083 AMOUNT OF SEGMENT COVERED BY SCENE                               %                          0            0   7 %                         0         3".
Definition b2179 : text := " 020090 SPECIAL CLOUDS                                                   CODE TABLE 20090           0            0   4 CODE TABLE 20090          0         2".
Definition b2180 : text := " 020193 CLOUD AMOUNT IN SEGMENT                                          %                          0            0   7 %                         0         3".
Definition b2181 : text := " 020194 AMOUNT OF SEGMENT CLOUD FREE                                     %                          0            0   7 %                         0         3".
Definition b2182 : text := " 020215 PRESSURE AT THE BASE OF CLOUD                                    PA                        -1            0  14 PA                       -1         5".
Definition b2183 : text := " 020250 CALCULATED SURFACE TYPE                                          CODE TABLE 20250           0            0   5 ".
Definition b2184 : text := " 020251 ICE AGE                                                          CODE TABLE 20251           0            0   3 ".
Definition b2185 : text := " 020252 ICE EDGE                                                         CODE TABLE 20252           0            0   3 ".
Definition b2186 : text := " 020253 SURFACE TYPE                                                     CODE TABLE 20253           0            0   3 ".
Definition b2187 : text := " 020254 ICE CONCENTRATION                                                %                          0            0   7 ".
Definition b2188 : text := " 021001 HORIZONTAL REFLECTIVITY                                          dB                         0          -64   7 dB                        0         3".
Definition b2189 : text := " 021002 VERTICAL REFLECTIVITY                                            dB                         0          -64   7 dB                        0         3".
Definition b2190 : text := " 021003 DIFFERENTIAL REFLECTIVITY                                        dB                         1           -5   7 dB                        1         3".
Definition b2191 : text := " 021005 LINEAR DEPOLARISATION RATIO                                      dB                         0          -65   6 dB                        0         2".
Definition b2192 : text := " 021006 CIRCULAR DEPOLARISATION RATIO                                    dB                         0          -65   6 dB                        0         2".
Definition b2193 : text := " 021011 DOPPLER MEAN VELOCITY IN X-DIRECTION                             M/S                        0         -128   8 M/S                       0         3".
Definition b2194 : text := " 021012 DOPPLER MEAN VELOCITY IN Y-DIRECTION                             M/S                        0         -128   8 M/S                       0         3".
Definition b2195 : text := " 021013 DOPPLER MEAN VELOCITY IN Z-DIRECTION                             M/S                        0         -128   8 M/S                       0         3".
Definition b2196 : text := " 021014 DOPPLER MEAN VELOCITY (RADIAL)                                   M/S                        1        -4096  13 M/S                       1         4".
Definition b2197 : text := " 021017 DOPPLER VELOCITY SPECTRAL WIDTH                                  M/S                        1            0   8 M/S                       1         3".
Definition b2198 : text := " 021021 ECHO TOPS                                                        M                         -3            0   4 M                        -3         2".
Definition b2199 : text := " 021030 SIGNAL TO NOISE RATIO                                            dB                         0          -32   8 dB                        0         3".
Definition b2200 : text := " 021031 VERTICALLY INTEGRATED LIQUID-WATER CONTENT                       KG/M**2                    0            0   7 KG/M**2                   0         3".
Definition b2201 : text := " 021036 RADAR RAINFALL INTENSITY                                         M/S                        7            0  12 M/S                       7         4".
Definition b2202 : text := " 021041 BRIGHT-BAND HEIGHT                                               M                         -2            0   8 M                        -2         3".
Definition b2203 : text := " 021051 SIGNAL POWER ABOVE 1 MW                                          dB                         0         -256   8 dB                        0         3".
Definition b2204 : text := " 021062 BACKSCATTER                                                      dB                         2        -5000  13 dB                        2         4".
Definition b2205 : text := " 021063 RADIOMETRIC RESOLUTION (NOISE VALUE)                             %                          1            0  10 %                         1         4".
Definition b2206 : text := " 021064 CLUTTER NOISE ESTIMATE                                           NUMERIC                    0            0   8 NUMERIC                   0         3".
Definition b2207 : text := " 021065 MISSING PACKET COUNTER                                           NUMERIC                    0         -127   8 NUMERIC                   0         3".
Definition b2208 : text := " 021066 WAVE SCATTEROMETER PRODUCT CONFIDENCE DATA                       FLAG TABLE 21066           0            0  12 FLAG TABLE 21066          0         4".
Definition b2209 : text := " 021067 WIND PRODUCT CONFIDENCE DATA                                     FLAG TABLE 21067           0            0  13 FLAG TABLE 21067          0         5".
Definition b2210 : text := " 021068 RADAR ALTIMETER PRODUCT CONFIDENCE DATA                          FLAG TABLE 21068           0            0   8 FLAG TABLE 21068          0         3".
Definition b2211 : text := " 021069 SST PRODUCT CONFIDENCE DATA                                      FLAG TABLE 21069           0            0  10 FLAG TABLE 21069          0         4".
Definition b2212 : text := " 021070 SST PRODUCT CONFIDENCE DATA (SADIST-2)                           FLAG TABLE 21070           0            0  23 FLAG TABLE 21070          0         6".
Definition b2213 : text := " 021071 PEAKINESS                                                        NUMERIC                    0            0  16 NUMERIC                   0         5".
Definition b2214 : text := " 021072 SATELLITE ALTIMETER CALIBRATION STATUS                           FLAG TABLE 21072           0            0   4 FLAG TABLE 21072          0         2".
Definition b2215 : text := " 021073 SATELLLITE ALTIMETER INSTRUMENT MODE                             FLAG TABLE 21073           0            0   9 FLAG TABLE 21073          0         3".
Definition b2216 : text := " 021075 IMAGE SPECTRUM INTENSITY                                         NUMERIC                    0            0   8 NUMERIC                   0         3".
Definition b2217 : text := " 021076 REPRESENTATION OF INTENSITIES                                    CODE TABLE 21076           0            0   3 CODE TABLE 21076          0         1".
Definition b2218 : text := " 021077 ALTITUDE CORRECTION (IONOSPHERE)                                 M                          3            0  14 M                         3         5".
Definition b2219 : text := " 021078 ALTITUDE CORRECTION (DRY TROPOSPHERE)                            M                          3            0   9 M                         3         3".
Definition b2220 : text := " 021079 ALTITUDE CORRECTION (WET TROPOSPHERE)                            M                          3         2000  10 M                         3         4".
Definition b2221 : text := " 021080 ALTITUDE CORRECTION (CALIBRATION CONSTANT)                       M                          3            0  11 M                         3         4".
Definition b2222 : text := " 021081 OPEN LOOP CORRECTION (HEIGHT-TIME LOOP)                          M                          3            0  10 M                         3         4".
Definition b2223 : text := " 021082 OPEN LOOP CORRECTION (AUTO GAIN CONTROL)                         dB                         3        -3000  14 dB                        3         5".
Definition b2224 : text := " 021083 WARM TARGET CALIBRATION                                          NUMERIC                    0            0  16 NUMERIC                   0         5".
Definition b2225 : text := " 021084 COLD TARGET CALIBRATION                                          NUMERIC                    0            0  16 NUMERIC                   0         5".
Definition b2226 : text := " 021085 ATSR SEA SURFACE TEMPERATURE ACROSS- TRACK BAND NUMBER           NUMERIC                    0            0   4 NUMERIC                   0         2".
Definition b2227 : text := " 021086 NUMBER OF PIXELS IN NADIR ONLY, AVERAGE                          NUMERIC                    0            0   9 NUMERIC                   0         3".
Definition b2228 : text := " 021087 NUMBER OF PIXELS IN DUAL VIEW, AVERAGE                           NUMERIC                    0            0   9 NUMERIC                   0         3".
Definition b2229 : text := " 021091 RADAR SIGNAL DOPPLER SPECTRUM 0TH MOMENT                         dB                         0         -100   8 dB                        0         3".
Definition b2230 : text := " 021092 RASS SIGNAL DOPPLER SPECTRUM 0TH MOMENT, REFERRING TO RASS SIGNA dB                         0         -100   8 dB                        0         3".
Definition b2231 : text := " 021101 NUMBER OF VECTOR AMBIGUITIES                                     NUMERIC                    0            0   3 NUMERIC                   0         1".
Definition b2232 : text := " 021102 INDEX OF SELECTED WIND VECTOR                                    NUMERIC                    0            0   3 NUMERIC                   0         1".
Definition b2233 : text := " 021103 TOTAL NUMBER OF SIGMA-0 MEASUREMENTS                             NUMERIC                    0            0   5 NUMERIC                   0         2".
Definition b2234 : text := " 021104 LIKELIHOOD COMPUTED FOR SOLUTION                                 NUMERIC                    3       -30000  15 NUMERIC                   3         5".
Definition b2235 : text := " 021105 NORMALIZED RADAR CROSS-SECTION                                   dB                         2       -10000  14 dB                        2         5".
Definition b2236 : text := " 021106 KP VARIANCE COEFFICIENT (ALPHA)                                  NUMERIC                    3            0  14 NUMERIC                   3         5".
Definition b2237 : text := " 021107 KP VARIANCE COEFFICIENT (BETA)                                   NUMERIC                    8            0  16 NUMERIC                   8         5".
Definition b2238 : text := " 021109 SEAWINDS WIND VECTOR CELL QUALITY                                FLAG TABLE 21109           0            0  17 FLAG TABLE 21109          0         6".
Definition b2239 : text := " 021110 NUMBER OF INNER-BEAM SIGMA-0 (FORWARD OF SATELLITE)              NUMERIC                    0            0   6 NUMERIC                   0         2".
Definition b2240 : text := " 021111 NUMBER OF OUTER-BEAM SIGMA-0 (FORWARD OF SATELLITE)              NUMERIC                    0            0   6 NUMERIC                   0         2".
Definition b2241 : text := " 021112 NUMBER OF INNER-BEAM SIGMA-0 (AFT OF SATELLITE)                  NUMERIC                    0            0   6 NUMERIC                   0         2".
Definition b2242 : text := " 021113 NUMBER OF OUTER-BEAM SIGMA-0 (AFT OF SATELLITE)                  NUMERIC                    0            0   6 NUMERIC                   0         2".
Definition b2243 : text := " 021114 KP VARIANCE COEFFICENT (GAMMA)                                   dB                         3      -140000  18 dB                        3         6".
Definition b2244 : text := " 021115 SEAWINDS SIGMA-0 QUALITY                                         FLAG TABLE 21115           0            0  17 FLAG TABLE 21115          0         6".
Definition b2245 : text := " 021116 SEAWINDS SIGMA-0 MODE                                            FLAG TABLE 21116           0            0  17 FLAG TABLE 21116          0         6".
Definition b2246 : text := " 021117 SIGMA-0 VARIANCE QUALITY CONTROL                                 NUMERIC                    2            0  16 NUMERIC                   2         5".
Definition b2247 : text := " 021118 ATTENUATION CORRECTION ON SIGMA-0                                dB                         2       -10000  14 dB                        2         5".
Definition b2248 : text := " 021119 WIND SCATTEROMETER GEOPHYSICAL MODEL FUNCTION                    CODE TABLE 21119           0            0   6 CODE TABLE 21119          0         2".
Definition b2249 : text := " 021120 PROBABILITY OF RAIN                                              NUMERIC                    3            0  10 NUMERIC                   3         4".
Definition b2250 : text := " 021121 SEAWINDS NOF* RAIN INDEX                                         NUMERIC                    0            0   8 NUMERIC                   0         3".
Definition b2251 : text := " 021122 ATTENUATION CORRECTION OF SIGMA-0 (FROM TB)                      dB                         2       -10000  14 dB                        2         5".
Definition b2252 : text := " 021123 SEAWINDS NORMALIZED RADAR CROSS SECTION                          dB                         2       -30000  15 dB                        2         5".
Definition b2253 : text := " 021128 NUMBER OF VALID POINTS PER SECOND USED TO DERIVE PREVIOUS PARAME NUMERIC                    0            0   8 NUMERIC                   0         3".
Definition b2254 : text := " 021130 SPECTRUM TOTAL ENERGY                                            NUMERIC                    6            0  28 NUMERIC                   6         9".
Definition b2255 : text := " 021131 SPECTRUM MAX ENERGY                                              NUMERIC                    6            0  28 NUMERIC                   6         9".
Definition b2256 : text := " 021132 DIRECTION OF SPECTRUM MAX ON HIGHER RESOLUTION GRID              DEGREE                     3            0  19 DEGREE                    3         6".
Definition b2257 : text := " 021133 WAVE-LENGTH OF SPECTRUM MAX ON HIGHER RESOLUTION GRID            M                          3            0  29 M                         3         9".
Definition b2258 : text := " 021134 RANGE RESOLUTION OF CRESS COVARIANCE SPECTRUM                    RAD/M                      3            0  19 RAD/M                     3         6".
Definition b2259 : text := " 021135 REAL PART OF CROSS SPECTRA POLAR GRID NUMBER OF BINS             NUMERIC                    3      -524288  20 NUMERIC                   3         7".
Definition b2260 : text := " 021136 IMAGINARY PART OF CROSS SPECTRA POLAR GRID NUMBER OF BINS        NUMERIC                    3      -524288  20 NUMERIC                   3         7".
Definition b2261 : text := " 021137 KU BAND CORRECTED OCEAN BACKSCATTER COEFFICIENT                  dB                         2       -32768  16 dB                        2         5".
Definition b2262 : text := " 021138 STD KU BAND CORRECTED OCEAN BACKSCATTER COEFFICIENT              dB                         2       -32768  16 dB                        2         5".
Definition b2263 : text := " 021139 KU BAND NET INSTRUMENTAL CORRECTION FOR AGC                      dB                         2        -2048  12 dB                        2         4".
Definition b2264 : text := " 021140 S BAND CORRECTED OCEAN BACKSCATTER COEFFICIENT                   dB                         2       -32768  16 dB                        2         5".
Definition b2265 : text := " 021141 STD S BAND CORRECTED OCEAN BACKSCATTER COEFFICIENT               dB                         2       -32768  16 dB                        2         5".
Definition b2266 : text := " 021142 S BAND NET INSTRUMENTAL CORRECTION FOR AGC                       dB                         2        -1024  11 dB                        2         4".
Definition b2267 : text := " 021143 KU BAND RAIN ATTENUATION                                         dB                         2  -1073741824  31 dB                        2        10".
Definition b2268 : text := " 021144 ALTIMETER RAIN FLAG                                              FLAG TABLE 21144           0            0   2 FLAG TABLE 21144          0         1".
Definition b2269 : text := " 021193 NOISE FIGURE                                                     %                          0            0   7 ".
Definition b2270 : text := " 021194 BACKGROUND NOISE LEVEL                                           NUMERIC                    0            0   8 ".
Definition b2271 : text := " 021195 MISSING PACKET COUNTER                                           NUMERIC                    0         -127   8 ".
Definition b2272 : text := " 021196 UWA PRODUCT CONFIDENCE                                           FLAG TABLE 21196           0            0  12 ".
Definition b2273 : text := " 021197 UWI PRODUCT CONFIDENCE                                           FLAG TABLE 21197           0            0  12 ".
Definition b2274 : text := " 021198 URA PRODUCT CONFIDENCE                                           FLAG TABLE 21198           0            0   8 ".
Definition b2275 : text := " 021199 UAT PRODUCT CONFIDENCE                                           FLAG TABLE 21199           0            0   7 ".
Definition b2276 : text := " 021200 MWI PRODUCT CONFIDENCE                                           FLAG TABLE 21200           0            0  15 ".
Definition b2277 : text := " 021201 PEAKINESS                                                        NUMERIC                    0            0  16 ".
Definition b2278 : text := " 021202 ALTIMETER CALIBRATION STATUS                                     FLAG TABLE 21202           0            0   4 ".
Definition b2279 : text := " 021203 ALTIMETER INSTRUMENT MODE                                        FLAG TABLE 21203           0            0   9 ".
Definition b2280 : text := " 021204 MULTI/SINGLE VIEW DIFFERENCE                                     K                          2         -512  10 ".
Definition b2281 : text := " 021205 SPECTRAL INTENSITY                                               NUMERIC                    0            0   8 ".
Definition b2282 : text := " 021206 REPRESENTATION OF INTENSITY                                      CODE TABLE 21206           0            0   3 ".
Definition b2283 : text := " 021207 ALTITUDE CORRECTION (IONOSPHERE)                                 M                          3            0  14 ".
Definition b2284 : text := " 021208 ALTITUDE CORRECTION (DRY TROPOSPHERE)                            M                          3            0   9 ".
Definition b2285 : text := " 021209 LTITUDE CORRECTION (WET TROPOSPHERE)                             M                          3         2000  10 ".
Definition b2286 : text := " 021210 ALTITUDE CORRECTION (CALIBRATION CONSTANT)                       M                          3            0  11 ".
Definition b2287 : text := " 021211 OPEN LOOP CORRECTION (HTL)                                       M                          3            0  10 ".
Definition b2288 : text := " 021212 OPEN LOOP CORRECTION (AGC)                                       dB                         3        -3000  14 ".
Definition b2289 : text := " 021213 AMBIGUITY REMOVAL CONFIDENCE                                     %                          0            0   7 ".
Definition b2290 : text := " 021214 UAT QUALITY SUMMARY                                              CODE TABLE 21214           0            0   3 ".
Definition b2291 : text := " 021215 UAT ACROSS-TRACK BAND NO.                                        NUMERIC                    0            0   4 ".
Definition b2292 : text := " 021222 DOPPLER SPECTRUM 0 TH MOMENT (AMPLITUDE)                         dB                         0            0   7 ".
Definition b2293 : text := " 021225 PRESCAT PRODUCT CONFIDENCE                                       FLAG TABLE 21225           0            0   6 ".
Definition b2294 : text := " 021226 BACKSCATER DISTANCE                                              NUMERIC                    1        -4096  13 ".
Definition b2295 : text := " 021230 NUMBER OF VECTOR AMBIGUITIES                                     NUMERIC                    0            0   3 ".
Definition b2296 : text := " 021231 INDEX OF SELECTED WIND VECTOR                                    NUMERIC                    0            0   3 ".
Definition b2297 : text := " 021232 TOTAL NMBER OF SIGMA-0 MEASUREMENTS                              NUMERIC                    0            0   5 ".
Definition b2298 : text := " 021233 NUMBER OF SIGMA-0 USABLE FOR WIND                                NUMERIC                    0            0   5 ".
Definition b2299 : text := " 021234 LIKELIHOOD COMPUTED FOR SOLUTION                                 NUMERIC                    1       -10000  14 ".
Definition b2300 : text := " 021235 WIND VECTOR CELL QUALITY FLAG                                    FLAG TABLE 21235           0            0   3 ".
Definition b2301 : text := " 021236 NUMBER OF FORE-BEAM SIGMA-0                                      NUMERIC                    1            0   6 ".
Definition b2302 : text := " 021237 NUMBER OF MID-BEAM V-POL SIGMA-0                                 NUMERIC                    1            0   6 ".
Definition b2303 : text := " 021238 NUMBER OF MID-BEAM H-POL SIGMA-0                                 NUMERIC                    1            0   6 ".
Definition b2304 : text := " 021239 NUMBER OF AFT-BEAM SIGMA-0                                       NUMERIC                    1            0   6 ".
Definition b2305 : text := " 021240 NORMALIZED RADAR CROSS SECTION                                   NUMERIC                    2       -10000  14 ".
Definition b2306 : text := " 021241 Kp VARIANCE COEFFICIENT (ALPHA)                                  NUMERIC                    5            0  14 ".
Definition b2307 : text := " 021242 Kp VARIANCE COEFFICIENT (BETHA)                                  NUMERIC                    6            0  16 ".
Definition b2308 : text := " 021243 Kp VARIANCE COEFFICIENT (GAMMA)                                  NUMERIC                    6            0  16 ".
Definition b2309 : text := " 021244 SIGMA-0 QUALITY FLAG                                             FLAG TABLE 21244           0            0  15 ".
Definition b2310 : text := " 022001 DIRECTION OF WAVES                                               DEGREE TRUE                0            0   9 DEGREE TRUE               0         3".
Definition b2311 : text := " 022002 DIRECTION OF WIND WAVES                                          DEGREE TRUE                0            0   9 DEGREE TRUE               0         3".
Definition b2312 : text := " 022003 DIRECTION OF SWELL WAVES                                         DEGREE TRUE                0            0   9 DEGREE TRUE               0         3".
Definition b2313 : text := " 022004 DIRECTION OF CURRENT                                             DEGREE TRUE                0            0   9 DEGREE TRUE               0         3".
Definition b2314 : text := " 022011 PERIOD OF WAVES                                                  S                          0            0   6 S                         0         2".
Definition b2315 : text := " 022012 PERIOD OF WIND WAVES                                             S                          0            0   6 S                         0         2".
Definition b2316 : text := " 022013 PERIOD OF SWELL WAVES                                            S                          0            0   6 S                         0         2".
Definition b2317 : text := " 022021 HEIGHT OF WAVES                                                  M                          1            0  10 M                         1         4".
Definition b2318 : text := " 022022 HEIGHT OF WIND WAVES                                             M                          1            0  10 M                         1         4".
Definition b2319 : text := " 022023 HEIGHT OF SWELL WAVES                                            M                          1            0  10 M                         1         4".
Definition b2320 : text := " 022025 STANDARD DEVIATION WAVE HEIGHT                                   M                          2            0  10 M                         2         4".
Definition b2321 : text := " 022026 STANDARD DEVIATION OF SIGNIFICANT WAVE HEIGHT                    M                          2            0  10 M                         2         4".
Definition b2322 : text := " 022031 SPEED OF CURRENT                                                 M/S                        2            0  13 M/S                       2         4".
Definition b2323 : text := " 022035 TIDAL ELEVATION WITH RESPECT TO LOCAL CHART DATUM                M                          2            0  14 M                         2         4".
Definition b2324 : text := " 022036 METEOROLOGICAL RESIDUAL TIDAL ELEVATION (SURGE OR OFFSET)        M                          2            0  14 M                         2         4".
Definition b2325 : text := " 022037 TIDAL ELEVATION WITH RESPECT TO NATIONAL LAND DATUM              M                          3       -10000  15 M                         3         5".
Definition b2326 : text := " 022038 TIDAL ELEVATION WITH RESPECT TO LOCAL CHART DATUM                M                          3       -10000  15 M                         3         5".
Definition b2327 : text := " 022039 METEOROLOGICAL RESIDUAL TIDAL ELEVATION (SURGE OR OFFSET)        M                          3        -5000  12 M                         3         4".
Definition b2328 : text := " 022040 METEOROLOGICAL RESIDUAL TIDAL ELEVATION (SURGE OR OFFSET)        M                          3        -5000  14 M                         3         5".
Definition b2329 : text := " 022041 SEA-SURFACE TEMPERATURE (15-DAY RUNNING MEAN)                    K                          1            0  12 K                         1         4".
Definition b2330 : text := " 022042 SEA/WATER TEMPERATURE                                            K                          1            0  12 K                         1         4".
Definition b2331 : text := " 022043 SEA/WATER TEMPERATURE                                            K                          2            0  15 K                         2         5".
Definition b2332 : text := " 022044 SOUND VELOCITY                                                   M/S                        1            0  14 M/S                       1         5".
Definition b2333 : text := " 022045 SEA/WATER TEMPERATURE                                            K                          3            0  19 K                         3         6".
Definition b2334 : text := " 022050 STANDARD DEVIATION SEA-SURFACE TEMPERATURE                       K                          2            0   8 K                         2         3".
Definition b2335 : text := " 022055 FLOAT CYCLE NUMBER                                               NUMERIC                    0            0  10 NUMERIC                   0         3".
Definition b2336 : text := " 022056 DIRECTION OF PROFILE                                             CODE TABLE 22056           0            0   2 CODE TABLE 22056          0         1".
Definition b2337 : text := " 022060 LAGRANGIAN DRIFTER DROGUE STATUS                                 CODE TABLE 22060           0            0   3 CODE TABLE 22060          0         1".
Definition b2338 : text := " 022061 STATE OF THE SEA                                                 CODE TABLE 22061           0            0   4 CODE TABLE 22061          0         2".
Definition b2339 : text := " 022062 SALINITY                                                         PART PER THOUSAND          2            0  14 PART PER THOUSAND         2         5".
Definition b2340 : text := " 022063 TOTAL WATER DEPTH                                                M                          0            0  14 M                         0         5".
Definition b2341 : text := " 022064 SALINITY                                                         PART PER THOUSAND          3            0  17 PART PER THOUSAND         3         6".
Definition b2342 : text := " 022065 WATER PRESSURE                                                   PA                        -3            0  17 PA                       -3         6".
Definition b2343 : text := " 022066 WATER CONDUCTIVITY                                               S M-1                      6            0  26 S M-1                     6         8".
Definition b2344 : text := " 022067 INSTRUMENT TYPE FOR WATER TEMPERATURE PROFILE MEASUREMENT        CODE TABLE 22067           0            0  10 CODE TABLE 22067          0         4".
Definition b2345 : text := " 022068 WATER TEMPERATURE PROFILE RECORDER TYPES                         CODE TABLE 22068           0            0   7 CODE TABLE 22068          0         3".
Definition b2346 : text := " 022069 SPECTRAL WAVE DENSITY                                            M2HZ-1                     3            0  22 M2HZ-1                    3         7".
Definition b2347 : text := " 022070 SIGNIFICANT WAVE HEIGHT                                          M                          2            0  13 M                         2         4".
Definition b2348 : text := " 022071 SPECTRAL PEAK WAVE PERIOD                                        S                          1            0   9 S                         1         3".
Definition b2349 : text := " 022072 SPECTRAL PEAK WAVE LENGTH                                        M                          0            0  13 M                         0         4".
Definition b2350 : text := " 022073 MAXIMUM WAVE HEIGHT                                              M                          2            0  13 M                         2         4".
Definition b2351 : text := " 022074 AVERAGE WAVE PERIOD                                              S                          1            0   9 S                         1         3".
Definition b2352 : text := " 022075 AVERAGE WAVE LENGTH                                              M                          0            0  13 M                         0         4".
Definition b2353 : text := " 022076 DIRECTION FROM WHICH DOMINANT WAVES ARE COMING                   DEGREE TRUE                0            0   9 DEGREE TRUE               0         3".
Definition b2354 : text := " 022077 DIRECTIONAL SPREAD OF DOMINANT WAVE                              DEGREE                     0            0   9 DEGREE                    0         3".
Definition b2355 : text := " 022078 DURATION OF WAVE RECORD                                          S                          0            0  12 S                         0         4".
Definition b2356 : text := " 022079 LENGTH OF WAVE RECORD                                            M                          0            0  16 M                         0         5".
Definition b2357 : text := " 022080 WAVEBAND CENTRAL FREQUENCY                                       Hz                         3            0  10 Hz                        3         4".
Definition b2358 : text := " 022081 WAVEBAND CENTRAL WAVE NUMBER                                     1/M                        5            0  13 1/M                       5         4".
Definition b2359 : text := " 022082 MAXIMUM NON-DIRECTIONAL SPECTRAL WAVE DENSITY                    M**2S                      2            0  20 M**2S                     2         7".
Definition b2360 : text := " 022083 MAXIMUM NON-DIRECTIONAL SPECTRAL WAVE NUMBER                     M**3                       2            0  20 M**3                      2         7".
Definition b2361 : text := " 022084 BAND CONTAINING MAXIMUM NON- DIRECTIONAL SPECTRAL WAVE DENSITY   NUMERIC                    0            0   7 NUMERIC                   0         3".
Definition b2362 : text := " 022085 SPECTRAL WAVE DENSITY RATIO                                      NUMERIC                    0            0   7 NUMERIC                   0         3".
Definition b2363 : text := " 022086 MEAN DIRECTION FROM WHICH WAVES ARE COMING                       DEGREE TRUE                0            0   9 DEGREE TRUE               0         3".
Definition b2364 : text := " 022087 PRINCIPAL DIRECTION FROM WHICH WAVES ARE COMING                  DEGREE TRUE                0            0   9 DEGREE TRUE               0         3".
Definition b2365 : text := " 022088 FIRST NORMALIZED POLAR COORDINATE FROM FOURIER COEFFICIENTS      NUMERIC                    2            0   7 NUMERIC                   2         3".
Definition b2366 : text := " 022089 SECOND NORMALIZED POLAR COORDINATE FROM FOURIER COEFFICIENTS     NUMERIC                    2            0   7 NUMERIC                   2         3".
Definition b2367 : text := " 022090 NON-DIRECTIONAL SPECTRAL ESTIMATE BY WAVE FREQUENCY              M**2S                      2            0  20 M**2S                     2         7".
Definition b2368 : text := " 022091 NON-DIRECTIONAL SPECTRAL ESTIMATE BY WAVE NUMBER                 M**3                       2            0  20 M**3                      2         7".
Definition b2369 : text := " 022092 DIRECTIONAL SPECTRAL ESTIMATE BY WAVE FREQUENCY                  M**2S/RAD                  2            0  20 M**2S/RAD                 2         7".
Definition b2370 : text := " 022093 DIRECTIONAL SPECTRAL ESTIMATE BY WAVE NUMBER                     M**4                       2            0  20 M**4                      2         7".
Definition b2371 : text := " 022094 TOTAL NUMBER OF WAVE BANDS                                       NUMERIC                    0            0   7 NUMERIC                   0         3".
Definition b2372 : text := " 022095 DIRECTIONAL SPREAD OF INDIVIDUAL WAVES                           DEGREE                     0            0   8 DEGREE                    0         3".
Definition b2373 : text := " 022096 SPECTRAL BAND WIDTH                                              1/S                        3            0   4 1/S                       3         2".
Definition b2374 : text := " 022097 MEAN WAVELENGTH > 731 M OF IMAGE SPECTRUM AT LOW WAVE NUMBERS    M                          0            0  14 M                         0         5".
Definition b2375 : text := " 022098 WAVELENGTH SPREAD (WAVELENGTH > 731 M) AT LOW WAVE NUMBERS       M                          0            0  14 M                         0         5".
Definition b2376 : text := " 022099 MEAN DIRECTION AT LOW WAVE NUMBERS (WAVELENGTH > 731 M)          DEGREE TRUE                0            0   9 DEGREE TRUE               0         3".
Definition b2377 : text := " 022100 DIRECTION SPREAD AT LOW WAVE NUMBERS(WAVELENGTH > 731 M)         DEGREE                     0            0   9 DEGREE                    0         3".
Definition b2378 : text := " 022101 TOTAL ENERGY (WAVELENGTH > 731M) AT LOW WAVE NUMBERS             NUMERIC                    0            0  31 NUMERIC                   0        10".
Definition b2379 : text := " 022120 TIDE STATION AUTOMATED WATER LEVEL CHECK                         CODE TABLE 22120           0            0   5 CODE TABLE 22120          0         2".
Definition b2380 : text := " 022121 TIDE STATION MANUAL WATER LEVEL CHECK                            CODE TABLE 22121           0            0   5 CODE TABLE 22121          0         2".
Definition b2381 : text := " 022122 TIDE STATION AUTOMATED METEOROLOGICAL DATA CHECK                 CODE TABLE 22122           0            0   5 CODE TABLE 22122          0         2".
Definition b2382 : text := " 022123 TIDE STATION MANUAL METEOROLOGICAL DATA CHECK                    CODE TABLE 22123           0            0   5 CODE TABLE 22123          0         2".
Definition b2383 : text := " 022141 SEA-SURFACE TEMPERATURE (15-DAY RUNNING MEAN)                    K                          2            0  15 K                         2         5".
Definition b2384 : text := " 022150 NUMBER OF 18 HZ VALID POINTS FOR KU BAND                         NUMERIC                    0            0  10 NUMERIC                   0         4".
Definition b2385 : text := " 022151 KU BAND OCEAN RANGE                                              M                          3            0  31 M                         3        10".
Definition b2386 : text := " 022152 STD OF 18 HZ KU BAND OCEAN RANGE                                 M                          3            0  16 M                         3         5".
Definition b2387 : text := " 022153 NUMBER OF 18 HZ VALID POINTS FOR S BAND                          NUMERIC                    0            0  10 NUMERIC                   0         4".
Definition b2388 : text := " 022154 S BAND OCEAN RANGE                                               M                          3            0  31 M                         3        10".
Definition b2389 : text := " 022155 STD OF 18 HZ S BAND OCEAN RANGE                                  M                          3            0  16 M                         3         5".
Definition b2390 : text := " 022156 KU BAND SIGNIFICANT WAVE HEIGHT                                  M                          3            0  16 M                         3         5".
Definition b2391 : text := " 022157 STD 18HZ KU BAND SIGNIFICANT WAVE HEIGHT                         M                          3            0  16 M                         3         5".
Definition b2392 : text := " 022158 S BAND SIGNIFICANT WAVE HEIGHT                                   M                          3            0  16 M                         3         5".
Definition b2393 : text := " 022159 STD 18HZ S BAND SIGNIFICANT WAVE HEIGHT                          M                          3            0  16 M                         3         5".
Definition b2394 : text := " 022160 NORMALIZED INVERSE WAVE AGE                                      NUMERIC                    6            0  21 NUMERIC                   6         7".
Definition b2395 : text := " 022161 WAVE SPECTRA                                                     M**4                       4            0  27 M**4                      4         9".
Definition b2396 : text := " 022193 MEAN WAVENUMBER                                                  1/M                        5            0  15 ".
Definition b2397 : text := " 022194 PEAK WAVENUMBER                                                  1/M                        5            0  15 ".
Definition b2398 : text := " 022195 MEAN WAVE PROPAGATION DIRECTION                                  DEGREE                     1            0  13 ".
Definition b2399 : text := " 022196 PEAK WAVE PROPAGATION DIRECTION                                  DEGREE                     1            0  13 ".
Definition b2400 : text := " 022197 DIRECTION SPREAD                                                 DEGREE                     1            0  13 ".
Definition b2401 : text := " 022198 VARIANCE SPECTRAL DENSITY                                        M**2*S/RAD                 4            0  18 ".
Definition b2402 : text := " 022199 CORRELATION COEFF OF SIMULATED FG AND OBSERVED SAR SPECTRUM      NUMERIC                    4       -10000  15 ".
Definition b2403 : text := " 022200 CORRELATION COEFF OF SIMULATED BF AND OBSERVED SAR SPECTRUM      NUMERIC                    4       -10000  15 ".
Definition b2404 : text := " 022201 CORRELATION COEFF OF OCEAN WAVE FG AND EXTRACTED WAVE SPECTRUM   NUMERIC                    4       -10000  15 ".
Definition b2405 : text := " 022202 ERROR BETWEEN FIRST GUESS AND OBSERVED SAR                       NUMERIC                    5            0  21 ".
Definition b2406 : text := " 022203 ERROR BETWEEN SIMULATED AND OBSERVED SAR                         NUMERIC                    5            0  21 ".
Definition b2407 : text := " 022204 MEAN PERIOD OF WAVES                                             SECOND                     2            0  13 ".
Definition b2408 : text := " 022205 SPECTRAL DENSITY                                                 M**2*S/RAD                 4            0  25 ".
Definition b2409 : text := " 022206 PEAK PERIOD OF WAVES                                             SECOND                     2            0  13 ".
Definition b2410 : text := " 022207 MEAN WAVE PERIOD                                                 S                          1            0  10 ".
Definition b2411 : text := " 022208 PEAK PERIOD OF 1D SPECTRA                                        S                          1            0  10 ".
Definition b2412 : text := " 022209 COEFICIENT OF DRAG WITH WAVES                                    NUMERIC                    6            0  13 ".
Definition b2413 : text := " 022210 MEAN SQUARE SLOPE OF WAVES                                       NUMERIC                    4       -10000  14 ".
Definition b2414 : text := " 022211 COEFICIENT OF DRAG WITH WAVES                                    NUMERIC                    6            0  17 ".
Definition b2415 : text := " 022243 STANDARD DEVIATION SIGNIFICANT WAVE HEIGHT                       M                          2            0  10 ".
Definition b2416 : text := " 023001 ACCIDENT EARLY NOTIFICATION   ARTICLE APPLICABLE                 CODE TABLE 23001           0            0   3 CODE TABLE 23001          0         1".
Definition b2417 : text := " 023002 ACTIVITY OR FACILITY INVOLVED IN INCIDENT                        CODE TABLE 23002           0            0   5 CODE TABLE 23002          0         2".
Definition b2418 : text := " 023003 TYPE OF RELEASE                                                  CODE TABLE 23003           0            0   3 CODE TABLE 23003          0         1".
Definition b2419 : text := " 023004 COUNTERMEASURES TAKEN NEAR BORDER                                CODE TABLE 23004           0            0   3 CODE TABLE 23004          0         1".
Definition b2420 : text := " 023005 CAUSE OF INCIDENT                                                CODE TABLE 23005           0            0   2 CODE TABLE 23005          0         1".
Definition b2421 : text := " 023006 INCIDENT SITUATION                                               CODE TABLE 23006           0            0   3 CODE TABLE 23006          0         1".
Definition b2422 : text := " 023007 CHARACTERISTICS OF RELEASE                                       CODE TABLE 23007           0            0   3 CODE TABLE 23007          0         1".
Definition b2423 : text := " 023008 STATE OF CURRENT RELEASE                                         CODE TABLE 23008           0            0   2 CODE TABLE 23008          0         1".
Definition b2424 : text := " 023009 STATE OF EXPECTED RELEASE                                        CODE TABLE 23009           0            0   2 CODE TABLE 23009          0         1".
Definition b2425 : text := " 023016 POSSIBILITY OF SIGNIFICANT CHEMICAL TOXIC HEALTH EFFECT          CODE TABLE 23016           0            0   2 CODE TABLE 23016          0         1".
Definition b2426 : text := " 023017 FLOW DISCHARGE OF MAJOR RECIPIENT                                M**3/S                     6            0  20 M**3/S                    6         7".
Definition b2427 : text := " 023018 RELEASE BEHAVIOUR OVER TIME                                      CODE TABLE 23018           0            0   3 CODE TABLE 23018          0         1".
Definition b2428 : text := " 023019 ACTUAL RELEASE HEIGHT                                            M                          0       -15000  17 M                         0         6".
Definition b2429 : text := " 023021 EFFECTIVE RELEASE HEIGHT                                         M                          0       -15000  17 M                         0         6".
Definition b2430 : text := " 023022 DISTANCE OF RELEASE POINT OR SITE OF INCIDENT                    M                          0            0  24 M                         0         8".
Definition b2431 : text := " 023023 MAIN TRANSPORT SPEED IN THE ATMOSPHERE                           M/S                        1            0  12 M/S                       1         4".
Definition b2432 : text := " 023024 MAIN TRANSPORT SPEED IN WATER                                    M/S                        2            0  13 M/S                       2         4".
Definition b2433 : text := " 023025 MAIN TRANSPORT SPEED IN GROUND WATER                             M/S                        2            0  13 M/S                       2         4".
Definition b2434 : text := " 023027 MAIN TRANSPORT DIRECTION IN THE ATMOSPHERE                       DEGREE TRUE                0            0   9 DEGREE TRUE               0         3".
Definition b2435 : text := " 023028 MAIN TRANSPORT DIRECTION IN WATER                                DEGREE TRUE                0            0   9 DEGREE TRUE               0         3".
Definition b2436 : text := " 023029 MAIN TRANSPORT DIRECTION IN GROUND WATER                         DEGREE TRUE                0            0   9 DEGREE TRUE               0         3".
Definition b2437 : text := " 023031 POSSIBILITY THAT PLUME WILL ENCOUNTER PRECIPITATION IN STATE IN  CODE TABLE 23031           0            0   2 CODE TABLE 23031          0         1".
Definition b2438 : text := " 023032 PLUME WILL ENCOUNTER CHANGE IN WIND DIRECTION AND/OR SPEED FLAG  CODE TABLE 23032           0            0   2 CODE TABLE 23032          0         1".
Definition b2439 : text := " 024001 ESTIMATE OF AMOUNT OF RADIOACTIVITY RELEASED UP TO SPECIFIED TIM Bq                       -11            0  28 Bq                      -11         9".
Definition b2440 : text := " 024002 ESTIMATED MAXIMUM POTENTIAL RELEASE                              Bq                       -11            0  28 Bq                      -11         9".
Definition b2441 : text := " 024003 COMPOSITION OF RELEASE                                           CODE TABLE 24003           0            0   5 CODE TABLE 24003          0         2".
Definition b2442 : text := " 024004 ELEMENT NAME                                                     CCITTIA5                   0            0  16 CHARACTER                 0         2".
Definition b2443 : text := " 024005 ISOTOPE MASS                                                     NUMERIC                    0            0   9 NUMERIC                   0         3".
Definition b2444 : text := " 024011 DOSE                                                             mSv                        2            0  32 mSv                       2        10".
Definition b2445 : text := " 024012 TRAJECTORY DOSE (DEFINED LOCATION AND EXPECTED TIME OF ARRIVAL)  mSv                        2            0  32 mSv                       2        10".
Definition b2446 : text := " 024013 GAMMA DOSE IN AIR ALONG THE MAIN TRANSPORT PATH (DEFINED LOCATIO mSv                        2            0  32 mSv                       2        10".
Definition b2447 : text := " 024021 AIR CONCENTRATION (OF NAMED ISOTOPE TYPE INCLUDING GROSS BETA)   Bq/M**3                    2            0  32 Bq/M**3                   2        10".
Definition b2448 : text := " 024022 CONCENTRATION IN PRECIPITATION (OF NAMES ISOTOPE TYPE)           Bq/L                       2            0  32 BQ L-1                    2        10".
Definition b2449 : text := " 024023 PULSE RATE OF BETA RADIATION                                     1/S                        1            0  14 1/S                       1         4".
Definition b2450 : text := " 024024 PULSE RATE OF GAMMA RADIATION                                    1/S                        1            0  14 1/S                       1         4".
Definition b2451 : text := " 025001 RANGE-GATE LENGTH                                                M                         -1            0   6 M                        -1         2".
Definition b2452 : text := " 025002 NUMBER OF GATES AVERAGED                                         NUMERIC                    0            0   4 NUMERIC                   0         2".
Definition b2453 : text := " 025003 NUMBER OF INTEGRATED PULSES                                      NUMERIC                    0            0   8 NUMERIC                   0         3".
Definition b2454 : text := " 025004 ECHO PROCESSING                                                  CODE TABLE 25004           0            0   2 CODE TABLE 25004          0         1".
Definition b2455 : text := " 025005 ECHO INTEGRATION                                                 CODE TABLE 25005           0            0   2 CODE TABLE 25005          0         1".
Definition b2456 : text := " 025006 Z TO R CONVERSION                                                CODE TABLE 25006           0            0   3 CODE TABLE 25006          0         1".
Definition b2457 : text := " 025007 Z TO R CONVERSION FACTOR                                         NUMERIC                    0            0  12 NUMERIC                   0         4".
Definition b2458 : text := " 025008 Z TO R CONVERSION EXPONENT                                       NUMERIC                    2            0   9 NUMERIC                   2         3".
Definition b2459 : text := " 025009 CALIBRATION METHOD                                               FLAG TABLE 25009           0            0   4 FLAG TABLE 25009          0         2".
Definition b2460 : text := " 025010 CLUTTER TREATMENT                                                CODE TABLE 25010           0            0   4 CODE TABLE 25010          0         2".
Definition b2461 : text := " 025011 GROUND OCCULTATION CORRECTION (SCREENING)                        CODE TABLE 25011           0            0   2 CODE TABLE 25011          0         1".
Definition b2462 : text := " 025012 RANGE ATTENUATION CORRECTION                                     CODE TABLE 25012           0            0   2 CODE TABLE 25012          0         1".
Definition b2463 : text := " 025013 BRIGHT-BAND CORRECTION                                           FLAG TABLE 25013           0            0   2 FLAG TABLE 25013          0         1".
Definition b2464 : text := " 025014 AZIMUTH CLUTTER CUT-OFF (SEE NOTE 1)                             NUMERIC                    0            0  12 NUMERIC                   0         4".
Definition b2465 : text := " 025015 RADOME ATTENUATION CORRECTION                                    FLAG TABLE 25015           0            0   2 FLAG TABLE 25015          0         1".
Definition b2466 : text := " 025016 CLEAR-AIR ATTENUATION CORRECTION                                 dB/M                       5            0   6 dB/M                      5         2".
Definition b2467 : text := " 025017 PRECIPITATION ATTENUATION CORRECTION                             FLAG TABLE 25017           0            0   2 FLAG TABLE 25017          0         1".
Definition b2468 : text := " 025018 A TO Z LAW FOR ATTENUATION FACTOR                                NUMERIC                    7            0   6 NUMERIC                   7         2".
Definition b2469 : text := " 025019 A TO Z LAW FOR ATTENUATION EXPONENT                              NUMERIC                    2            0   7 NUMERIC                   2         3".
Definition b2470 : text := " 025020 MEAN SPEED ESTIMATION                                            CODE TABLE 25020           0            0   2 CODE TABLE 25020          0         1".
Definition b2471 : text := " 025021 WIND COMPUTATION ENHANCEMENT                                     FLAG TABLE 25021           0            0   8 FLAG TABLE 25021          0         3".
Definition b2472 : text := " 025025 BATTERY VOLTAGE                                                  V                          1            0   9 V                         1         3".
Definition b2473 : text := " 025026 BATTERY VOLTAGE (LARGE RANGE)                                    V                          1            0  12 V                         1         4".
Definition b2474 : text := " 025028 OPERATOR OR MANUFACTURER DEFINED PARAMETER                       NUMERIC                    1       -16384  15 NUMERIC                   1         5".
Definition b2475 : text := " 025030 RUNNING MEAN SEA-SURFACE TEMPERATURE USAGE                       CODE TABLE 25030           0            0   2 CODE TABLE 25030          0         1".
Definition b2476 : text := " 025032 WIND PROFILER MODE INFORMATION                                   CODE TABLE 25032           0            0   2 CODE TABLE 25032          0         1".
Definition b2477 : text := " 025033 WIND PROFILER SUBMODE INFORMATION*                               CODE TABLE 25033           0            0   2 CODE TABLE 25033          0         1".
Definition b2478 : text := " 025034 WIND PROFILER QUALITY CONTROL TEST RESULTS*                      FLAG TABLE 25034           0            0   4 FLAG TABLE 25034          0         2".
Definition b2479 : text := " 025036 ATMOSPHERICS LOCATION METHOD                                     CODE TABLE 25036           0            0   4 CODE TABLE 25036          0         2".
Definition b2480 : text := " 025040 CO2 WIND PRODUCT DERIVATION                                      CODE TABLE 25040           0            0   4 CODE TABLE 25040          0         2".
Definition b2481 : text := " 025041 MOVING PLATFORM DIRECTION REPORTING METHOD                       CODE TABLE 25041           0            0   2 CODE TABLE 25041          0         1".
Definition b2482 : text := " 025042 MOVING PLATFORM SPEED REPORTING METHOD                           CODE TABLE 25042           0            0   2 CODE TABLE 25042          0         1".
Definition b2483 : text := " 025043 WAVE SAMPLING INTERVAL (TIME)                                    S                          4            0  15 S                         4         5".
Definition b2484 : text := " 025044 WAVE SAMPLING INTERVAL (SPACE)                                   M                          2            0  14 M                         2         5".
Definition b2485 : text := " 025045 HIRS CHANNEL COMBINATION                                         FLAG TABLE 25045           0            0  21 FLAG TABLE 25045          0         7".
Definition b2486 : text := " 025046 MSU CHANNEL COMBINATION                                          FLAG TABLE 25046           0            0   5 FLAG TABLE 25046          0         2".
Definition b2487 : text := " 025047 SSU CHANNEL COMBINATION                                          FLAG TABLE 25047           0            0   4 FLAG TABLE 25047          0         2".
Definition b2488 : text := " 025048 AMSU-A CHANNEL COMBINATION                                       FLAG TABLE 25048           0            0  16 FLAG TABLE 25048          0         6".
Definition b2489 : text := " 025049 AMSU-B CHANNEL COMBINATION                                       FLAG TABLE 25049           0            0   6 FLAG TABLE 25049          0         2".
Definition b2490 : text := " 025051 AVHRR CHANNEL COMBINATION                                        FLAG TABLE 25051           0            0   7 FLAG TABLE 25051          0         3".
Definition b2491 : text := " 025052 LOG-10 OF PRINCIPAL COMPONENTS NORMALIZED FIT TO DATA            NUMERIC                    4            0  15 NUMERIC                   4         5".
Definition b2492 : text := " 025053 OBSERVATION QUALITY                                              FLAG TABLE 25053           0            0  12 FLAG TABLE 25053          0         4".
Definition b2493 : text := " 025054 SSMIS SUBFRAME ID NEMBER                                         NUMERIC                    0            0   5 NUMERIC                   0         2".
Definition b2494 : text := " 025055 MULTIPLEXER HOUSEKEEPING                                         K                          2            0  16 K                         2         5".
Definition b2495 : text := " 025060 SOFTWARE IDENTIFICATION (SEE NOTE 2)                             NUMERIC                    0            0  14 NUMERIC                   0         5".
Definition b2496 : text := " 025061 SOFTWARE IDENTIFICATION AND VERSION NUMBER                       CCITTIA5                   0            0  96 CHARACTER                 0        12".
Definition b2497 : text := " 025065 ORIENTATION CORRECTION (AZIMUTH)                                 DEGREE                     2        -1000  11 DEGREE                    2         4".
Definition b2498 : text := " 025066 ORIENTATION CORRECTION (ELEVATION)                               DEGREE                     2        -1000  11 DEGREE                    2         4".
Definition b2499 : text := " 025067 RADIOSONDE RELEASE POINT PRESSURE CORRECTION                     PA                         0        -8000  14 PA                        0         4".
Definition b2500 : text := " 025068 NUMBER OF ARCHIVE RECOMPUTES                                     NUMERIC                    0            0   7 NUMERIC                   0         3".
Definition b2501 : text := " 025069 FLIGHT LEVEL PRESSURE CORRECTIONS                                FLAG TABLE 25069           0            0   8 FLAG TABLE 25069          0         3".
Definition b2502 : text := " 025070 MAJOR FRAME COUNT                                                NUMERIC                    0            0   4 NUMERIC                   0         2".
Definition b2503 : text := " 025071 FRAME COUNT                                                      NUMERIC                    0            0   5 NUMERIC                   0         2".
Definition b2504 : text := " 025075 SATELLITE ANTENNA CORRECTIONS VERSION NUMBER                     NUMERIC                    0            0   5 NUMERIC                   0         2".
Definition b2505 : text := " 025076 LOG-10 OF (TEMPERATURE-RADIANCE CENTRAL WAVENUMBER) FOR ATOVS    LOG (1/M)                  8            0  30 LOG (1/M)                 8        10".
Definition b2506 : text := " 025077 BANDWIDTH CORRECTION COEFFICIENT 1 FOR ATOVS                     NUMERIC                    5      -100000  18 NUMERIC                   5         7".
Definition b2507 : text := " 025078 BANDWIDTH CORRECTION COEFFICIENT 2 FOR ATOVS                     NUMERIC                    5            0  17 NUMERIC                   5         6".
Definition b2508 : text := " 025079 ALBEDO-RADIANCE SOLAR FILTERED IRRADIANCE FOR ATOVS              W/M**2                     4            0  24 W/M**2                    4         8".
Definition b2509 : text := " 025080 ALBEDO-RADIANCE EQUIVALENT FILTER WIDTH FOR ATOVS                M                         10            0  14 M                        10         5".
Definition b2510 : text := " 025085 FRACTION OF CLEAR PIXELS IN HIRS FOV                             NUMERIC                    0            0   7 NUMERIC                   0         3".
Definition b2511 : text := " 025086 DEPTH CORRECTION INDICATOR                                       CODE TABLE 25086           0            0   2 CODE TABLE 25086          0         1".
Definition b2512 : text := " 025091 STRUCTURE CONSTANT OF THE REFRACTION INDEX (CN2)                 dB                         3       -18192  13 dB                        3         5".
Definition b2513 : text := " 025092 ACOUSTIC PROPAGATION VELOCITY                                    M/S                        2        28000  14 M/S                       2         5".
Definition b2514 : text := " 025093 RASS COMPUTATION CORRECTION                                      FLAG TABLE 25093           0            0   8 FLAG TABLE 25093          0         3".
Definition b2515 : text := " 025095 ALTIMETER STATE FLAG                                             FLAG TABLE 25095           0            0   2 FLAG TABLE 25095          0         1".
Definition b2516 : text := " 025096 RADIOMETER STATE FLAG                                            FLAG TABLE 25096           0            0   5 FLAG TABLE 25096          0         2".
Definition b2517 : text := " 025097 THREE DIMENSIONAL ERROR ESTIMATE OF THE NAVIGATOR ORBIT          CODE TABLE 25097           0            0   4 CODE TABLE 25097          0         2".
Definition b2518 : text := " 025100 XBT/XCTD FALL RATE EQUATION COEFFICIENT A                        NUMERIC                    5            0  20 NUMERIC                   5         6".
Definition b2519 : text := " 025101 XBT/XCTD FALL RATE EQUATION COEFFICIENT B                        NUMERIC                    5      -500000  21 NUMERIC                   5         6".
Definition b2520 : text := " 025102 NUMBER OF MISSING LINES EXCLUDING DATA GAPS                      NUMERIC                    0            0   8 NUMERIC                   0         3".
Definition b2521 : text := " 025103 NUMBER OF DIRECTIONAL BINS                                       NUMERIC                    0            0   8 NUMERIC                   0         3".
Definition b2522 : text := " 025104 NUMBER OF WAVE-LENGTH BINS                                       NUMERIC                    0            0   8 NUMERIC                   0         3".
Definition b2523 : text := " 025107 FIRST WAVE-LENGTH BIN                                            M                          3            0  29 M                         3         9".
Definition b2524 : text := " 025108 LAST WAVE-LENGTH BIN                                             M                          3            0  29 M                         3         9".
Definition b2525 : text := " 025111 NUMBER OF INPUT DATA GAPS                                        NUMERIC                    0            0   8 NUMERIC                   0         3".
Definition b2526 : text := " 025120 RA2-L2-PROCESSING FLAG                                           CODE TABLE 25120           0            0   2 CODE TABLE 25120          0         1".
Definition b2527 : text := " 025121 RA2-L2-PROCESSING QUALITY                                        %                          0            0   7 %                         0         3".
Definition b2528 : text := " 025122 HARDWARE CONFIGURATION FOR RF                                    CODE TABLE 25122           0            0   2 CODE TABLE 25122          0         1".
Definition b2529 : text := " 025123 HARDWARE CONFIGURATION FOR HPA                                   CODE TABLE 25123           0            0   2 CODE TABLE 25123          0         1".
Definition b2530 : text := " 025124 MWR L2 PROCESSING FLAG                                           CODE TABLE 25124           0            0   2 CODE TABLE 25124          0         1".
Definition b2531 : text := " 025125 MWR L2-PROCESSING QUALITY                                        %                          0            0   7 %                         0         3".
Definition b2532 : text := " 025126 MODEL DRY TROPOSPHERIC CORRECTION                                M                          3       -32768  16 M                         3         5".
Definition b2533 : text := " 025127 INVERTED BAROMETER CORRECTION                                    M                          3       -32768  16 M                         3         5".
Definition b2534 : text := " 025128 MODEL WET TROPOSPHERIC CORRECTION                                M                          3       -32768  16 M                         3         5".
Definition b2535 : text := " 025129 MWR DERIVED WET TROPOSPHERIC CORRECTION                          M                          3       -32768  16 M                         3         5".
Definition b2536 : text := " 025130 RA2 IONOSPHERIC CORRECTION ON KU BAND                            M                          3       -32768  16 M                         3         5".
Definition b2537 : text := " 025131 IONOSPHERIC CORRECTION FROM DORIS ON KU BAND                     M                          3       -32768  16 M                         3         5".
Definition b2538 : text := " 025132 IONOSPHERIC CORRECTION FROM MODEL ON KU BAND                     M                          3       -32768  16 M                         3         5".
Definition b2539 : text := " 025133 SEA STATE BIAS CORRECTION ON KU BAND                             M                          3       -32768  16 M                         3         5".
Definition b2540 : text := " 025134 RA2 IONOSPHERIC CORRECTION ON S BAND                             M                          3       -32768  16 M                         3         5".
Definition b2541 : text := " 025135 IONOSPHERIC CORRECTION FROM DORIS ON S BAND                      M                          3       -32768  16 M                         3         5".
Definition b2542 : text := " 025136 IONOSPHERIC CORRECTION FROM MODEL ON S BAND                      M                          3       -32768  16 M                         3         5".
Definition b2543 : text := " 025137 SEA STATE BIAS CORRECTION ON S BAND                              M                          3       -32768  16 M                         3         5".
Definition b2544 : text := " 025138 AVERAGE SIGNAL TO NOISE RATION                                   NUMERIC                    0        -2048  12 NUMERIC                   0         4".
Definition b2545 : text := " 025193 ATTENUATION CORRECTION ON SIGMA0                                 dB                         3            0  14 ".
Definition b2546 : text := " 025194 MAJOR FRAME COUNT                                                NUMERIC                    0            0   4 ".
Definition b2547 : text := " 025197 ANTENNA CORRECTIONS VERSION NUMBER                               NUMERIC                    0            0   5 ".
Definition b2548 : text := " 025198 LOG (TEMP-RAD CENTRAL WAVE NUMBER)                               1/M                        8            0  30 ".
Definition b2549 : text := " 025199 BANDWIDTH CORRECTION COEFFICIENT 1                               NUMERIC                    4       -10000  15 ".
Definition b2550 : text := " 025200 BANDWIDTH CORRECTION COEFFICIENT 2                               NUMERIC                    5            0  17 ".
Definition b2551 : text := " 025201 ALBEDO-RAD SOLAR FILTERED IRRADIANCE                             NUMERIC                    4            0  24 ".
Definition b2552 : text := " 025202 ALBEDO-RAD EQUIVALENT FILTER WIDTH                               NUMERIC                   10            0  14 ".
Definition b2553 : text := " 025203 SCAN LINE STATUS FLAGS FOR ATOVS                                 FLAG TABLE 25203           0            0  31 ".
Definition b2554 : text := " 025204 SCAN LINE QUALITY FLAGS FOR ATOVS                                FLAG TABLE 25204           0            0  31 ".
Definition b2555 : text := " 025205 CHANNEL QUALITY FLAGS FOR ATOVS                                  FLAG TABLE 25205           0            0  31 ".
Definition b2556 : text := " 025206 FOV QUALITY FLAGS FOR ATOVS                                      FLAG TABLE 25206           0            0  31 ".
Definition b2557 : text := " 026001 PRINCIPAL TIME OF DAILY READING IN UTC OF MAXIMUM TEMPERATURE    HOUR                       1            0  12 HOUR                      1         3".
Definition b2558 : text := " 026002 PRINCIPAL TIME OF DAILY READING IN UTC OF MINIMUM TEMPERATURE    HOUR                       1            0  12 HOUR                      1         3".
Definition b2559 : text := " 026003 TIME DIFFERENCE                                                  MINUTE                     0        -1440  12 MINUTE                    0         4".
Definition b2560 : text := " 026010 HOURS INCLUDED                                                   FLAG TABLE 26010           0            0  26 FLAG TABLE 26010          0         9".
Definition b2561 : text := " 026020 DURATION OF PRECIPITATION                                        MINUTE                     0            0  11 MINUTE                    0         4".
Definition b2562 : text := " 026193 YEAR                                                             YEAR                       0            0  12 ".
Definition b2563 : text := " 026194 MONTH                                                            MONTH                      0            0   4 ".
Definition b2564 : text := " 026195 DAY                                                              DAY                        0            0   6 ".
Definition b2565 : text := " 026196 HOUR                                                             HOUR                       0            0   5 ".
Definition b2566 : text := " 026197 MINUTE                                                           MINUTE                     0            0   6 ".
Definition b2567 : text := " 026198 SECOND                                                           SECOND                     0            0   6 ".
Definition b2568 : text := " 026200 LOCATION WITHIN ASSIMILATION WINDOW IN TIME                      NUMERIC                    6            0  20 ".
Definition b2569 : text := " 026201 HOURS INCLUDED                                                   FLAG TABLE 26201           0            0  26 ".
Definition b2570 : text := " 027001 LATITUDE (HIGH ACCURACY)                                         DEGREE                     5     -9000000  25 DEGREE                    5         7".
Definition b2571 : text := " 027002 LATITUDE (COARSE ACCURACY)                                       DEGREE                     2        -9000  15 DEGREE                    2         4".
Definition b2572 : text := " 027003 ALTERNATE LATITUDE (COARSE ACCURACY)                             DEGREE                     2        -9000  15 DEGREE                    2         4".
Definition b2573 : text := " 027004 ALTERNATE LATITUDE (HIGH ACCURACY)                               DEGREE                     5     -9000000  25 DEGREE                    5         7".
Definition b2574 : text := " 027020 SATELLITE LOCATION COUNTER                                       NUMERIC                    0            0  16 NUMERIC                   0         5".
Definition b2575 : text := " 027021 SATELLITE SUBLOCATION DIMENSION                                  NUMERIC                    0            0  16 NUMERIC                   0         5".
Definition b2576 : text := " 027031 IN DIRECTION OF 0 DEGREES LONGITUDE, DISTANCE FROM THE EARTH'S C M                          2  -1073741824  31 M                         2        10".
Definition b2577 : text := " 027080 VIEWING AZIMUTH ANGLE                                            DEGREE TRUE                2            0  16 DEGREE TRUE               0         5".
Definition b2578 : text := " 027193 SOLAR AZIMUTH                                                    DEGREE TRUE                2            0  16 ".
Definition b2579 : text := " 028001 LONGITUDE (HIGH ACCURACY)                                        DEGREE                     5    -18000000  26 DEGREE                    5         8".
Definition b2580 : text := " 028002 LONGITUDE (COARSE ACCURACY)                                      DEGREE                     2       -18000  16 DEGREE                    2         5".
Definition b2581 : text := " 028003 ALTERNATE LONGITUDE (COARSE ACCURACY)                            DEGREE                     2       -18000  16 DEGREE                    2         5".
Definition b2582 : text := " 028004 ALTERNATE LONGITUDE (HIGH ACCURACY)                              DEGREE                     5    -18000000  26 DEGREE                    5         8".
Definition b2583 : text := " 028031 IN DIRECTION 90 DEGREES EAST, DISTANCE FROM THE EARTH'S CENTRE   M                          2  -1073741824  31 M                         2        10".
Definition b2584 : text := " 029001 PROJECTION TYPE                                                  CODE TABLE 29001           0            0   3 CODE TABLE 29001          0         1".
Definition b2585 : text := " 029002 CO-ORDINATE GRID TYPE                                            CODE TABLE 29002           0            0   3 CODE TABLE 29002          0         1".
Definition b2586 : text := " 030001 PIXEL VALUE (4 BITS)                                             NUMERIC                    0            0   4 NUMERIC                   0         2".
Definition b2587 : text := " 030002 PIXEL VALUE (8 BITS)                                             NUMERIC                    0            0   8 NUMERIC                   0         3".
Definition b2588 : text := " 030004 PIXEL VALUE (16 BITS)                                            NUMERIC                    0            0  16 NUMERIC                   0         5".
Definition b2589 : text := " 030021 NUMBER OF PIXELS PER ROW                                         NUMERIC                    0            0  12 NUMERIC                   0         4".
Definition b2590 : text := " 030022 NUMBER OF PIXELS PER COLUMN                                      NUMERIC                    0            0  12 NUMERIC                   0         4".
Definition b2591 : text := " 030031 PICTURE TYPE                                                     CODE TABLE 30031           0            0   4 CODE TABLE 30031          0         2".
Definition b2592 : text := " 030032 COMBINATION WITH OTHER DATA                                      FLAG TABLE 30032           0            0  16 FLAG TABLE 30032          0         6".
Definition b2593 : text := " 030193 POSITION NUMBER ALONG SCAN                                       NUMERIC                    0            0   8 ".
Definition b2594 : text := " 033002 QUALITY INFORMATION                                              CODE TABLE 33002           0            0   2 CODE TABLE 33002          0         1".
Definition b2595 : text := " 033003 QUALITY INFORMATION                                              CODE TABLE 33003           0            0   3 CODE TABLE 33003          0         1".
Definition b2596 : text := " 033005 QUALITY INFORMATION (AWS DATA)                                   FLAG TABLE 33005           0            0  30 FLAG TABLE 33005          0        10".
Definition b2597 : text := " 033006 INTERNAL MEASUREMENT STATUS INFORMATION (AWS)                    CODE TABLE 33006           0            0   3 CODE TABLE 33006          0         1".
Definition b2598 : text := " 033007 PER CENT CONFIDENCE                                              %                          0            0   7 %                         0         3".
Definition b2599 : text := " 033015 DATA QUALITY CHECK INDICATOR                                     CODE TABLE 33015           0            0   6 CODE TABLE 33015          0         2".
Definition b2600 : text := " 033020 QUALITY CONTROL INDICATION OF FOLLOWING VALUE                    CODE TABLE 33020           0            0   3 CODE TABLE 33020          0         1".
Definition b2601 : text := " 033021 QUALITY OF FOLLOWING VALUE                                       CODE TABLE 33021           0            0   2 CODE TABLE 33021          0         1".
Definition b2602 : text := " 033022 QUALITY OF BUOY SATELLITE TRANSMISSION                           CODE TABLE 33022           0            0   2 CODE TABLE 33022          0         1".
Definition b2603 : text := " 033023 QUALITY OF BUOY LOCATION                                         CODE TABLE 33023           0            0   2 CODE TABLE 33023          0         1".
Definition b2604 : text := " 033024 STATION ELEVATION QUALITY MARK (FOR MOBILE STATIONS)             CODE TABLE 33024           0            0   4 CODE TABLE 33024          0         2".
Definition b2605 : text := " 033025 ACARS INTERPOLATED VALUES                                        CODE TABLE 33025           0            0   3 CODE TABLE 33025          0         1".
Definition b2606 : text := " 033026 MOISTURE QUALITY                                                 CODE TABLE 33026           0            0   6 CODE TABLE 33026          0         2".
Definition b2607 : text := " 033027 LOCATION QUALITY CLASS (RANGE OF RADIUS OF 66 % CONFIDENCE)      CODE TABLE 33027           0            0   3 CODE TABLE 33027          0         1".
Definition b2608 : text := " 033030 SCAN LINE STATUS FLAGS FOR ATOVS                                 FLAG TABLE 33030           0            0  24 FLAG TABLE 33030          0         8".
Definition b2609 : text := " 033031 SCAN LINE QUALITY FLAGS FOR ATOVS                                FLAG TABLE 33031           0            0  24 FLAG TABLE 33031          0         8".
Definition b2610 : text := " 033032 CHANNEL QUALITY FLAGS FOR ATOVS                                  FLAG TABLE 33032           0            0  24 FLAG TABLE 33032          0         8".
Definition b2611 : text := " 033033 FIELD OF VIEW QUALITY FLAGS FOR ATOVS                            FLAG TABLE 33033           0            0  24 FLAG TABLE 33033          0         8".
Definition b2612 : text := " 033035 MANUAL/AUTOMATIC QUALITY CONTROL                                 CODE TABLE 33035           0            0   4 CODE TABLE 33035          0         2".
Definition b2613 : text := " 033036 NOMINAL CONFIDENCE THRESHOLD                                     %                          0            0   7 %                         0         3".
Definition b2614 : text := " 033037 WIND CORRELATION ERROR                                           FLAG TABLE 33037           0            0  20 FLAG TABLE 33037          0         7".
Definition b2615 : text := " 033038 QUALITY FLAGS FOR GROUND-BASED GNSS DATA                         FLAG TABLE 33038           0            0  10 FLAG TABLE 33038          0         4".
Definition b2616 : text := " 033039 QUALITY FLAGS FOR RADIO OCCULTATION DATA                         FLAG TABLE 33039           0            0  16 FLAG TABLE 33039          0         6".
Definition b2617 : text := " 033040 CONFIDENCE INTERVAL                                              %                          0            0   7 PERCENT                   0         3".
Definition b2618 : text := " 033041 ATTRIBUTE OF FOLLOWING VALUE                                     CODE TABLE 33041           0            0   2 CODE TABLE 33041          0         1".
Definition b2619 : text := " 033042 TYPE OF LIMIT REPRESENTED BY FOLLOWING VALUE                     CODE TABLE 33042           0            0   3 CODE TABLE 33042          0         1".
Definition b2620 : text := " 033043 AST CONFIDENCE                                                   FLAG TABLE 33043           0            0   8 FLAG TABLE 33043          0         3".
Definition b2621 : text := " 033044 ASAR QUALITY INFORMATION                                         FLAG TABLE 33044           0            0  15 FLAG TABLE 33044          0         5".
Definition b2622 : text := " 033045 PROBABILITY OF FOLLOWING EVENT                                   %                          0            0   7 %                         0         3".
Definition b2623 : text := " 033046 CONDITIONAL PROBABILITY OF FOLLOWING EVENT WITH RESPECT TO SPECI %                          0            0   7 %                         0         3".
Definition b2624 : text := " 033047 MEASUREMENT CONFIDENCE DATA                                      FLAG TABLE 33047           0            0  31 FLAG TABLE 33047          0        11".
Definition b2625 : text := " 033048 CONFIDENCE MEASURE OF SAR INVERSION                              CODE TABLE 33048           0            0   2 CODE TABLE 33048          0         1".
Definition b2626 : text := " 033049 CONFIDENCE MEASURE OF WIND RETRIEVAL                             CODE TABLE 33049           0            0   2 CODE TABLE 33049          0         1".
Definition b2627 : text := " 033050 GLOBAL GTSPP QUALITY FLAG                                        CODE TABLE 33050           0            0   4 CODE TABLE 33050          0         2".
Definition b2628 : text := " 033052 S BAND OCEAN RETRACKING QUALITY                                  FLAG TABLE 33052           0            0  21 FLAG TABLE 33052          0         7".
Definition b2629 : text := " 033053 KU BAND OCEAN RETRACKING QUALITY                                 FLAG TABLE 33053           0            0  21 FLAG TABLE 33053          0         7".
Definition b2630 : text := " 033193 DATA QUALITY 3 BIT CODE                                          CODE TABLE 33193           0            0   3 ".
Definition b2631 : text := " 033194 DATA QUALITY 2 BIT CODE                                          CODE TABLE 33194           0            0   2 ".
Definition b2632 : text := " 033195 ECMWF SAR QC INDICATOR                                           CODE TABLE 33195           0            0   5 ".
Definition b2633 : text := " 033196 ECMWF WAM QC INDICATOR                                           CODE TABLE 33196           0            0   2 ".
Definition b2634 : text := " 033197 ECMWF SAR INVERSION QC INDICATOR                                 CODE TABLE 33197           0            0   3 ".
Definition b2635 : text := " 033198 MINIMUM COST                                                     NUMERIC                    4            0  14 ".
Definition b2636 : text := " 033199 1D VAR TOTAL PRECIPITABLE WATER RETRIEVED ERROR(S)               KG/M**2                    2            0  11 ".
Definition b2637 : text := " 033200 ANALYSIS REPORT EVENTS                                           FLAG TABLE 33200           0            0  31 ".
Definition b2638 : text := " 033201 ANALYSIS REPORT STATUS EVENT                                     FLAG TABLE 33201           0            0  13 ".
Definition b2639 : text := " 033202 ANALYSIS DATUM EVENT FLAGS (1)                                   FLAG TABLE 33202           0            0  31 ".
Definition b2640 : text := " 033203 ANALYSIS DATUM EVENT FLAGS (2)                                   FLAG TABLE 33203           0            0  11 ".
Definition b2641 : text := " 033204 ANALYSIS DATUM STATUS FLAGS                                      FLAG TABLE 33204           0            0  21 ".
Definition b2642 : text := " 033205 VARIATIONAL ANALYSIS BLACK LIST FLAG                             CODE TABLE 33205           0            0   4 ".
Definition b2643 : text := " 033206 VARIATIONAL ANALYSIS QUALITY CONTROL FLAG                        CODE TABLE 33206           0            0   4 ".
Definition b2644 : text := " 033207 VARIATIONAL ANALYSIS DEPARTURE FLAG                              CODE TABLE 33207           0            0   4 ".
Definition b2645 : text := " 033208 VARIATIONAL ANALYSIS FIRST QUESS CHECK FLAG                      CODE TABLE 33208           0            0   4 ".
Definition b2646 : text := " 033209 VARIATIONAL ANALYSIS FINAL FLAG                                  CODE TABLE 33209           0            0   4 ".
Definition b2647 : text := " 033210 INCREMENTAL VARIATIONAL ANALYSIS UPDATE NUMBER                   NUMERIC                    0            0   7 ".
Definition b2648 : text := " 033211 MINIMISATION SIMULATION NUMBER                                   NUMERIC                    0            0  10 ".
Definition b2649 : text := " 033212 1D VAR ITERATION NUMBER                                          NUMERIC                    0            0  10 ".
Definition b2650 : text := " 033213 1D VAR RADIANCE COST                                             NUMERIC                    1        -1000  11 ".
Definition b2651 : text := " 033214 1D VAR ERROR(S)                                                  FLAG TABLE 33214           0            0  11 ".
Definition b2652 : text := " 033215 DIRECTIONAL SKILL                                                NUMERIC                    1        -4096  13 ".
Definition b2653 : text := " 033216 1D VAR SURFACE TYPE QUALITY CONTROL                              CODE TABLE 33216           0            0   3 ".
Definition b2654 : text := " 033217 1D VAR FAILURE INDICATOR                                         CODE TABLE 33217           0            0   2 ".
Definition b2655 : text := " 033218 1D VAR ESTIMATE OF SCATTERING                                    NUMERIC                    2            0  12 ".
Definition b2656 : text := " 033219 SSMI INDIPENDENT SCATTERING INDEX                                NUMERIC                    2       -50000  16 ".
Definition b2657 : text := " 033220 VARIATIONAL ANALYSIS REPORT EVENTS (1)                           FLAG TABLE 33220           0            0  31 ".
Definition b2658 : text := " 033221 VARIATIONAL ANALYSIS SYNOP EVENTS (2)                            FLAG TABLE 33221           0            0  31 ".
Definition b2659 : text := " 033222 VARIATIONAL ANALYSIS AIREP EVENTS (2)                            FLAG TABLE 33222           0            0  31 ".
Definition b2660 : text := " 033223 VARIATIONAL ANALYSIS SATOB EVENTS (2)                            FLAG TABLE 33223           0            0  31 ".
Definition b2661 : text := " 033224 VARIATIONAL ANALYSIS DRIBU EVENTS (2)                            FLAG TABLE 33224           0            0  31 ".
Definition b2662 : text := " 033225 VARIATIONAL ANALYSIS TEMP EVENTS (2)                             FLAG TABLE 33225           0            0  31 ".
Definition b2663 : text := " 033226 VARIATIONAL ANALYSIS PILOT EVENTS (2)                            FLAG TABLE 33226           0            0  31 ".
Definition b2664 : text := " 033227 VARIATIONAL ANALYSIS SATEM/TOVS EVENTS (2)                       FLAG TABLE 33227           0            0  31 ".
Definition b2665 : text := " 033228 VARIATIONAL ANALYSIS PAOB EVENTS (2)                             FLAG TABLE 33228           0            0  31 ".
Definition b2666 : text := " 033229 VARIATIONAL ANALYSIS SCATTEROMETER EVENTS (2)                    FLAG TABLE 33229           0            0  31 ".
Definition b2667 : text := " 033230 VARIATIONAL ANALYSIS RAW RADIANCES EVENTS (2)                    FLAG TABLE 33230           0            0  31 ".
Definition b2668 : text := " 033231 PRESAT SUMMARY FLAGS                                             FLAG TABLE 33231           0            0   6 ".
Definition b2669 : text := " 033232 REPORT BLACK LIST EVENTS                                         FLAG TABLE 33232           0            0  31 ".
Definition b2670 : text := " 033233 VARIATIONAL ANALYSIS REPORT STATUS                               FLAG TABLE 33233           0            0  31 ".
Definition b2671 : text := " 033234 VARIATIONAL ANALYSIS DATUM STATUS                                FLAG TABLE 33234           0            0  31 ".
Definition b2672 : text := " 033236 VARIATIONAL ANALYSIS DATUM EVENTS (1)                            FLAG TABLE 33236           0            0  31 ".
Definition b2673 : text := " 033237 VARIATIONAL ANALYSIS SYNOP DATUM EVENTS (2)                      FLAG TABLE 33237           0            0  31 ".
Definition b2674 : text := " 033238 VARIATIONAL ANALYSIS AIREP DATUM EVENTS (2)                      FLAG TABLE 33238           0            0  31 ".
Definition b2675 : text := " 033239 VARIATIONAL ANALYSIS SATOB DATUM EVENTS (2)                      FLAG TABLE 33239           0            0  31 ".
Definition b2676 : text := " 033240 VARIATIONAL ANALYSIS DRIBU DATUM EVENTS (2)                      FLAG TABLE 33240           0            0  31 ".
Definition b2677 : text := " 033241 GROSS ERROR PROBABILITY                                          NUMERIC                    3            0  10 ".
Definition b2678 : text := " 033242 GROSS ERROR INDICATOR                                            CODE TABLE 33242           0            0   2 ".
Definition b2679 : text := " 033243 VARIATIONAL ANALYSIS TEMP DATUM EVENTS (2)                       FLAG TABLE 33243           0            0  31 ".
Definition b2680 : text := " 033244 VARIATIONAL ANALYSIS PILOT DATUM EVENTS (2)                      FLAG TABLE 33244           0            0  31 ".
Definition b2681 : text := " 033245 VARIATIONAL ANALYSIS SATEM/TOVS DATUM EVENTS (2)                 FLAG TABLE 33245           0            0  31 ".
Definition b2682 : text := " 033246 VARIATIONAL ANALYSIS PAOB DATUM EVENTS (2)                       FLAG TABLE 33246           0            0  31 ".
Definition b2683 : text := " 033247 VARIATIONAL ANALYSIS SCATTEROMETER DATUM EVENTS (2)              FLAG TABLE 33247           0            0  31 ".
Definition b2684 : text := " 033248 VARIATIONAL ANALYSIS RAW RADIANCES DATUM EVENTS (2)              FLAG TABLE 33248           0            0  31 ".
Definition b2685 : text := " 033249 DATUM BLACK LIST EVENTS                                          FLAG TABLE 33249           0            0  31 ".
Definition b2686 : text := " 033250 PROBABILITY OF GROSS ERROR                                       NUMERIC                    6            0  20 ".
Definition b2687 : text := " 033251 RANGE OF POSSIBLE VALUES                                         NUMERIC                    2            0  14 ".
Definition b2688 : text := " 033252 MANUAL-AUTOMATIC QUALITY CONTROL                                 CODE TABLE 33252           0            0   4 ".
Definition b2689 : text := " 033253 NOMINAL CONFIDENCE THRESHOLD                                     %                          0            0   7 ".
Definition b2690 : text := " 033254 WIND CORRELATION METHOD                                          FLAG TABLE 33254           0            0  20 ".
Definition b2691 : text := " 035000 FM AND REGIONAL CODE NUMBER                                      CODE TABLE 35000           0            0  10 CODE TABLE 35000          0         3".
Definition b2692 : text := " 035001 TIME-FRAME FOR MONITORING                                        CODE TABLE 35001           0            0   3 CODE TABLE 35001          0         1".
Definition b2693 : text := " 035011 NUMBER OF REPORTS ACTUALLY RECEIVED                              NUMERIC                    0            0  14 NUMERIC                   0         4".
Definition b2694 : text := " 035021 BULLETIN BEING MONITORED (TTAAII)                                CCITTIA5                   0            0  48 CHARACTER                 0         6".
Definition b2695 : text := " 035022 BULLETIN BEING MONITORED (YYGGGG)                                CCITTIA5                   0            0  48 CHARACTER                 0         6".
Definition b2696 : text := " 035023 BULLETIN BEING MONITORED (CCCC)                                  CCITTIA5                   0            0  32 CHARACTER                 0         4".
Definition b2697 : text := " 035024 BULLETIN BEING MONITORED (BBB)                                   CCITTIA5                   0            0  24 CHARACTER                 0         3".
Definition b2698 : text := " 035030 DISCREPANCIES IN THE AVAILABILITY OF EXPECTED DATA               CODE TABLE 35030           0            0   4 CODE TABLE 35030          0         1".
Definition b2699 : text := " 035031 QUALIFIER ON MONITORING RESULTS                                  CODE TABLE 35031           0            0   7 CODE TABLE 35031          0         2".
Definition b2700 : text := " 035032 CAUSE OF MISSING DATA                                            CODE TABLE 35032           0            0   4 CODE TABLE 35032          0         1".
Definition b2701 : text := " 035033 OBSERVATION AND COLLECTION DEFICIENCIES                          CODE TABLE 35033           0            0   7 CODE TABLE 35033          0         2".
Definition b2702 : text := " 035034 STATISTICAL TRENDS FOR AVAILABILITY OF DATA (DURING THE SURVEY P CODE TABLE 35034           0            0   3 CODE TABLE 35034          0         1".
Definition b2703 : text := " 035035 REASON FOR TERMINATION                                           CODE TABLE 35035           0            0   5 CODE TABLE 35035          0         2".
Definition b2704 : text := " 049193 SAR INVERSION QC FLAGS                                           FLAG TABLE 49193           0            0  15 ".
Definition b2705 : text := " 049194 ALTIMETER WAVE HEIGHT QC FLAFS                                   FLAG TABLE 49194           0            0  15 ".
Definition b2706 : text := " 000001 TABLE A:  ENTRY                                                  CCITTIA5                   0            0  24 CHARACTER                 0         3              ".
Definition b2707 : text := " 000002 TABLE A:  DATA CATEGORY DESCRIPTION, LINE 1                      CCITTIA5                   0            0 256 CHARACTER                 0        32              ".
Definition b2708 : text := " 000003 TABLE A:  DATA CATEGORY DESCRIPTION, LINE 2                      CCITTIA5                   0            0 256 CHARACTER                 0        32              ".
Definition b2709 : text := " 000004 BUFR/CREX MASTER TABLE                                           CCITTIA5                   0            0  16 CHARACTER                 0         2              ".
Definition b2710 : text := " 000005 BUFR/CREX EDITION NUMBER                                         CCITTIA5                   0            0  24 CHARACTER                 0         3              ".
Definition b2711 : text := " 000006 BUFR MASTER TABLE VERSION NUMBER                                 CCITTIA5                   0            0  16 CHARACTER                 0         2              ".
Definition b2712 : text := " 000007 CREX MASTER TABLE VERSION NUMBER                                 CCITTIA5                   0            0  16 CHARACTER                 0         2              ".
Definition b2713 : text := " 000008 BUFR LOCAL TABLE VERSION NUMBER                                  CCITTIA5                   0            0  16 CHARACTER                 0         2              ".
Definition b2714 : text := " 000010 F DESCRIPTOR TO BE ADDED OR DEFINED                              CCITTIA5                   0            0   8 CHARACTER                 0         1              ".
Definition b2715 : text := " 000011 X DESCRIPTOR TO BE ADDED OR DEFINED                              CCITTIA5                   0            0  16 CHARACTER                 0         2              ".
Definition b2716 : text := " 000012 Y DESCRIPTOR TO BE ADDED OR DEFINED                              CCITTIA5                   0            0  24 CHARACTER                 0         3              ".
Definition b2717 : text := " 000013 ELEMENT NAME, LINE 1                                             CCITTIA5                   0            0 256 CHARACTER                 0        32              ".
Definition b2718 : text := " 000014 ELEMENT NAME, LINE 2                                             CCITTIA5                   0            0 256 CHARACTER                 0        32              ".
Definition b2719 : text := " 000015 UNITS NAME                                                       CCITTIA5                   0            0 192 CHARACTER                 0        24              ".
Definition b2720 : text := " 000016 UNITS SCALE SIGN                                                 CCITTIA5                   0            0   8 CHARACTER                 0         1              ".
Definition b2721 : text := " 000017 UNITS SCALE                                                      CCITTIA5                   0            0  24 CHARACTER                 0         3              ".
Definition b2722 : text := " 000018 UNITS REFERENCE SIGN                                             CCITTIA5                   0            0   8 CHARACTER                 0         1              ".
Definition b2723 : text := " 000019 UNITS REFERENCE VALUE                                            CCITTIA5                   0            0  80 CHARACTER                 0        10              ".
Definition b2724 : text := " 000020 ELEMENT DATA WIDTH                                               CCITTIA5                   0            0  24 CHARACTER                 0         3              ".
Definition b2725 : text := " 000030 DESCRIPTOR DEFINING SEQUENCE                                     CCITTIA5                   0            0  48 CHARACTER                 0         6              ".
Definition b2726 : text := " 001001 WMO BLOCK NUMBER                                                 NUMERIC                    0            0   7 NUMERIC                   0         2              ".
Definition b2727 : text := " 001002 WMO STATION NUMBER                                               NUMERIC                    0            0  10 NUMERIC                   0         3              ".
Definition b2728 : text := " 001003 WMO REGION NUMBER/GEOGRAPHICAL AREA                              CODE TABLE 1003            0            0   3 CODE TABLE 1003           0         1              ".
Definition b2729 : text := " 001004 WMO REGION SUB-AREA (SEE NOTE 9)                                 NUMERIC                    0            0   3 NUMERIC                   0         1              ".
Definition b2730 : text := " 001005 BUOY/PLATFORM IDENTIFIER                                         NUMERIC                    0            0  17 NUMERIC                   0         5              ".
Definition b2731 : text := " 001006 AIRCRAFT FLIGHT NUMBER                                           CCITTIA5                   0            0  64 CHARACTER                 0         8              ".
Definition b2732 : text := " 001007 SATELLITE IDENTIFIER                                             CODE TABLE 1007            0            0  10 CODE TABLE 1007           0         4              ".
Definition b2733 : text := " 001008 AIRCRAFT REGISTRATION NUMBER OR OTHER IDENTIFICATION             CCITTIA5                   0            0  64 CHARACTER                 0         8              ".
Definition b2734 : text := " 001009 TYPE OF COMMERCIAL AIRCRAFT                                      CCITTIA5                   0            0  64 CHARACTER                 0         8              ".
Definition b2735 : text := " 001010 STATIONARY BUOY PLATFORM IDENTIFIER; E.G. C-MAN BUOYS            CCITTIA5                   0            0  64 CHARACTER                 0         8              ".
Definition b2736 : text := " 001011 SHIP OR MOBILE LAND STATION IDENTIFIER                           CCITTIA5                   0            0  72 CHARACTER                 0         9              ".
Definition b2737 : text := " 001012 DIRECTION OF MOTION OF MOVING OBSERVING PLATFORM**               DEGREE TRUE                0            0   9 DEGREE TRUE               0         3              ".
Definition b2738 : text := " 001013 SPEED OF MOTION OF MOVING OBSERVING PLATFORM*                    M/S                        0            0  10 M/S                       0         3              ".
Definition b2739 : text := " 001014 PLATFORM DRIFT SPEED (HIGH PRECISION)                            M/S                        2            0  10 M/S                       2         4              ".
Definition b2740 : text := " 001015 STATION OR SITE NAME                                             CCITTIA5                   0            0 160 CHARACTER                 0        20              ".
Definition b2741 : text := " 001018 SHORT STATION OR SITE NAME                                       CCITTIA5                   0            0  40 CHARACTER                 0         5              ".
Definition b2742 : text := " 001019 LONG STATION OR SITE NAME                                        CCITTIA5                   0            0 256 CHARACTER                 0        32              ".
Definition b2743 : text := " 001020 WMO REGION SUB-AREA                                              NUMERIC                    0            0   4 NUMERIC                   0         2              ".
Definition b2744 : text := " 001021 SYNOPTIC FEATURE IDENTIFIER                                      NUMERIC                    0            0  14 NUMERIC                   0         4              ".
Definition b2745 : text := " 001022 NAME OF FEATURE (SEE NOTE 11)                                    CCITTIA5                   0            0 224 CHARACTER                 0        28              ".
Definition b2746 : text := " 001023 OBSERVATION SEQUENCE NUMBER                                      NUMERIC                    0            0   9 NUMERIC                   0         3              ".
Definition b2747 : text := " 001024 WIND SPEED SOURCE                                                CODE TABLE 1024            0            0   5".
Definition b2748 : text := " 001025 STORM IDENTIFIER                                                 CCITTIA5                   0            0  24 CHARACTER                 0         3              ".
Definition b2749 : text := " 001026 WMO STORM NAME                                                   CCITTIA5                   0            0  64 CHARACTER                 0         8              ".
Definition b2750 : text := " 001027 WMO LONG STORM NAME                                              CCITTIA5                   0            0  80 CHARACTER                 0        10              ".
Definition b2751 : text := " 001028 AEROSOL OPTICAL DEPTH (AOD) SOURCE                               CODE TABLE 1028            0            0   5 CODE TABLE 1028           0         2".
Definition b2752 : text := " 001029 SSI SOURCE                                                       CODE TABLE 1029            0            0   5 CODE TABLE 1029           0         2".
Definition b2753 : text := " 001030 NUMERICAL MODEL IDENTIFIER                                       CCITTIA5                   0            0 128 CHARACTER                 0        16              ".
Definition b2754 : text := " 001031 IDENTIFICATION OF ORIGINATING/GENERATING CENTRE (SEE NOTE 10)    CODE TABLE 1031            0            0  16 CODE TABLE 1031           0         5              ".
Definition b2755 : text := " 001032 GENERATING APPLICATION                                           CODE TABLE 1032            0            0   8 CODE TABLE 1032           0         3              ".
Definition b2756 : text := " 001033 IDENTIFICATION OF ORIGINATING/GENERATING CENTRE                  CODE TABLE 1033            0            0   8 CODE TABLE 1033           0         3              ".
Definition b2757 : text := " 001034 IDENTIFICATION OF ORIGINATING/GENERATING SUB-CENTRE              CODE TABLE 1034            0            0   8 CODE TABLE 1034           0         3              ".
Definition b2758 : text := " 001035 ORIGINATING CENTRE                                               COMMON CODE TABLE C-11     0            0  16 COMMON CODE TABLE C-11    0         5              ".
Definition b2759 : text := " 001036 AGENCY IN CHARGE OF OPERATING THE OBSERVING PLATFORM             CODE TABLE 1036            0            0  20 CODE TABLE 1036           0         7              ".
Definition b2760 : text := " 001037 SIGMET SEQUENCE IDENTIFIER                                       CCITTIA5                   0            0  24 CHARACTER                 0         3              ".
Definition b2761 : text := " 001038 SOURCE OF SEA ICE FRACTION                                       CODE TABLE 1038            0            0   5 CODE TABLE 1035           0         2".
Definition b2762 : text := " 001039 GRAPHICAL AREA FORECAST (GFA) SEQUENCE IDENTIFIER                CCITTIA5                   0            0  40 CHARACTER                 0         5".
Definition b2763 : text := " 001041 ABSOLUTE PLATFORM VELOCITY - FIRST COMPONENT (SEE NOTE 6)        M/S                        5  -1073741824  31 M/S                       5        10              ".
Definition b2764 : text := " 001042 ABSOLUTE PLATFORM VELOCITY - SECOND COMPONENT (SEE NOTE 6)       M/S                        5  -1073741824  31 M/S                       5        10              ".
Definition b2765 : text := " 001043 ABSOLUTE PLATFORM VELOCITY - THIRD COMPONENT (SEE NOTE 6)        M/S                        5  -1073741824  31 M/S                       5        10              ".
Definition b2766 : text := " 001050 PLATFORM TRANSMITTER ID NUMBER                                   NUMERIC                    0            0  17 NUMERIC                   0         6              ".
Definition b2767 : text := " 001051 PLATFORM TRANSMITTER ID NUMBER                                   CCITTIA5                   0            0  96 CHARACTER                 0        12              ".
Definition b2768 : text := " 001060 AIRCRAFT REPORTING POINT (BEACON IDENTIFIER)                     CCITTIA5                   0            0  64 CHARACTER                 0         8              ".
Definition b2769 : text := " 001062 SHORT ICAO LOCATION INDICATOR                                    CCITTIA5                   0            0  32 CHARACTER                 0         4              ".
Definition b2770 : text := " 001063 ICAO LOCATION INDICATOR                                          CCITTIA5                   0            0  64 CHARACTER                 0         8              ".
Definition b2771 : text := " 001064 RUNWAY DESIGNATOR                                                CCITTIA5                   0            0  32 CHARACTER                 0         4              ".
Definition b2772 : text := " 001065 ICAO REGION IDENTIFIER                                           CCITTIA5                   0            0 256 CHARACTER                 0        32              ".
Definition b2773 : text := " 001075 TIDE STATION IDENTIFICATION                                      CCITTIA5                   0            0  40 CHARACTER                 0         5              ".
Definition b2774 : text := " 001080 SHIP LINE NUMBER ACCORDING TO SOOP                               CCITTIA5                   0            0  32 CHARACTER                 0         4              ".
Definition b2775 : text := " 001081 RADIOSONDE SERIAL NUMBER                                         CCITTIA5                   0            0 160 CHARACTER                 0        20              ".
Definition b2776 : text := " 001082 RADIOSONDE ASCENSION NUMBER (SEE NOTE 12)                        NUMERIC                    0            0  14 NUMERIC                   0         4              ".
Definition b2777 : text := " 001083 RADIOSONDE RELEASE NUMBER (SEE NOTE 12)                          NUMERIC                    0            0   3 NUMERIC                   0         1              ".
Definition b2778 : text := " 001085 OBSERVING PLATFORM MANUFACTURER'S MODEL                          CCITTIA5                   0            0 160 CHARACTER                 0        20              ".
Definition b2779 : text := " 001086 OBSERVING PLATFORM MANUFACTURER'S SERIAL NUMBER                  CCITTIA5                   0            0 256 CHARACTER                 0        32              ".
Definition b2780 : text := " 001087 WMO MARINE OBSERVING PLATFORM EXTENDED IDENTIFIER                NUMERIC                    0            0  23 NUMERIC                   0         7              ".
Definition b2781 : text := " 001090 TECHNIQUE FOR MAKING UP INITIAL PERTURBATIONS                    CODE TABLE 1090            0            0   8 CODE TABLE 1090           0         3              ".
Definition b2782 : text := " 001091 ENSEMBLE MEMBER NUMBER                                           NUMERIC                    0            0  10 NUMERIC                   0         4              ".
Definition b2783 : text := " 001092 TYPE OF ENSEMBLE FORECAST                                        CODE TABLE 1092            0            0   8 CODE TABLE 1092           0         3              ".
Definition b2784 : text := " 001093 BALLOON LOT NUMBER                                               CCITTIA5                   0            0  96 CHARACTER                 0        12              ".
Definition b2785 : text := " 001094 WBAN NUMBER                                                      NUMERIC                    0            0  17 NUMERIC                   0         5              ".
Definition b2786 : text := " 001095 OBSERVER IDENTIFICATION                                          CCITTIA5                   0            0  32 CHARACTER                 0         4              ".
Definition b2787 : text := " 001096 STATION ACQUISITION                                              CCITTIA5                   0            0 160 CHARACTER                 0        20              ".
Definition b2788 : text := " 001101 STATE IDENTIFIER                                                 CODE TABLE 1101            0            0  10 CODE TABLE 1101           0         3".
Definition b2789 : text := " 001102 NATIONAL STATION NUMBER                                          NUMERIC                    0            0  30 NUMERIC                   0         9".
Definition b2790 : text := " 001124 GRID POINT IDENTIFIER                                            NUMERIC                    0            0  24 NUMERIC                   0         8              ".
Definition b2791 : text := " 001144 SNAPSHOT IDENTIFIER                                              NUMERIC                    0            0  31 NUMERIC                   0        10              ".
Definition b2792 : text := " 001192 MODEL VERSION NUMBER                                             CODE TABLE 001192          0            0   8                                     ".
Definition b2793 : text := " 001193 SIGMA_0 SIMULATION METHOD                                        CODE TABLE 1193            0            0   4                                                    ".
Definition b2794 : text := " 001194 CARRIER BALLOON/AIRCRAFT IDENTIFIER                              CCITTIA5                   0            0  72                                                    ".
Definition b2795 : text := " 001195 MOBIL LAND STATION IDENTIFIER                                    CCITTIA5                   0            0  72                                                    ".
Definition b2796 : text := " 001196 CONSTANT LEVEL BALLOON IDENTIFIER                                CCITTIA5                   0            0  72                                                    ".
Definition b2797 : text := " 001197 RTP - PLATFORM TYPE                                              CODE TABLE 1197            0            0  10                                                    ".
Definition b2798 : text := " 001198 ITP - DECK ID                                                    CODE TABLE 1198            0            0  10                                                    ".
Definition b2799 : text := " 001199 DUP - DUPLICATE STATUS                                           CODE TABLE 1199            0            0   4                                                    ".
Definition b2800 : text := " 001201 GENERATING APPLICATION                                           CODE TABLE 1201            0            0   8                                                    ".
Definition b2801 : text := " 001205 SATELLITE IDENTIFIER                                             CODE TABLE 1205            0            0  10                                                    ".
Definition b2802 : text := " 001208 VELOCITY OF PLATFORM, X                                          M/S                        5  -1073741824  31                                                    ".
Definition b2803 : text := " 001209 VELOCITY OF PLATFORM, Y                                          M/S                        5  -1073741824  31                                                    ".
Definition b2804 : text := " 001210 VELOCITY OF PLATFORM, Z                                          M/S                        5  -1073741824  31                                                    ".
Definition b2805 : text := " 001211 ORIGIN OF SEA SURFACE ANALYSIS                                   CCITTIA5                   0            0 160 CHARACTER                 0        20              ".
Definition b2806 : text := " 001220 RADAR COMPOSITE NAME                                             CCITTIA5                   0            0 160 CHARACTER                 0        20              ".
Definition b2807 : text := " 002001 TYPE OF STATION                                                  CODE TABLE 2001            0            0   2 CODE TABLE 2001           0         1              ".
Definition b2808 : text := " 002002 TYPE OF INSTRUMENTATION FOR WIND MEASUREMENT                     FLAG TABLE 2002            0            0   4 FLAG TABLE 2002           0         2              ".
Definition b2809 : text := " 002003 TYPE OF MEASURING EQUIPMENT USED                                 CODE TABLE 2003            0            0   4 CODE TABLE 2003           0         2              ".
Definition b2810 : text := " 002004 TYPE OF INSTRUMENTATION FOR EVAPORATION MEASUREMENT OR TYPE OF C CODE TABLE 2004            0            0   4 CODE TABLE 2004           0         2              ".
Definition b2811 : text := " 002005 PRECISION OF TEMPERATURE OBSERVATION                             K                          2            0   7 K                         2         3              ".
Definition b2812 : text := " 002011 RADIOSONDE TYPE                                                  CODE TABLE 2011            0            0   8 CODE TABLE 2011           0         3              ".
Definition b2813 : text := " 002012 RADIOSONDE COMPUTATIONAL METHOD                                  CODE TABLE 2012            0            0   4 CODE TABLE 2012           0         2              ".
Definition b2814 : text := " 002013 SOLAR AND INFRARED RADIATION CORRECTION                          CODE TABLE 2013            0            0   4 CODE TABLE 2013           0         2              ".
Definition b2815 : text := " 002014 TRACKING TECHNIQUE/STATUS OF SYSTEM USED                         CODE TABLE 2014            0            0   7 CODE TABLE 2014           0         3              ".
Definition b2816 : text := " 002015 RADIOSONDE COMPLETENESS                                          CODE TABLE 2015            0            0   4 CODE TABLE 2015           0         2              ".
Definition b2817 : text := " 002016 RADIOSONDE CONFIGURATION                                         FLAG TABLE 2016            0            0   5 FLAG TABLE 2016           0         2              ".
Definition b2818 : text := " 002019 SATELLITE INSTRUMENTS                                            CODE TABLE 2019            0            0  11 CODE TABLE 2019           0         4              ".
Definition b2819 : text := " 002020 SATELLITE CLASSIFICATION                                         CODE TABLE 2020            0            0   9 CODE TABLE 2020           0         3              ".
Definition b2820 : text := " 002021 SATELLITE INSTRUMENT DATA USED IN PROCESSING                     FLAG TABLE 2021            0            0   9 FLAG TABLE 2021           0         3              ".
Definition b2821 : text := " 002022 SATELLITE DATA-PROCESSING TECHNIQUE USED                         FLAG TABLE 2022            0            0   8 FLAG TABLE 2022           0         3              ".
Definition b2822 : text := " 002023 SATELLITE DERIVED WIND COMPUTATION METHOD                        CODE TABLE 2023            0            0   4 CODE TABLE 2023           0         2              ".
Definition b2823 : text := " 002024 INTEGRATED MEAN HUMIDITY COMPUTATIONAL METHOD                    CODE TABLE 2024            0            0   4 CODE TABLE 2024           0         2              ".
Definition b2824 : text := " 002025 SATELLITE CHANNEL(S) USED IN COMPUTATION                         FLAG TABLE 2025            0            0  25 FLAG TABLE 2025           0         9              ".
Definition b2825 : text := " 002026 CROSS TRACK RESOLUTION                                           M                          2            0  12 M                         2         4              ".
Definition b2826 : text := " 002027 ALONG TRACK RESOLUTION                                           M                          2            0  12 M                         2         4              ".
Definition b2827 : text := " 002028 SEGMENT SIZE AT NADIR IN X DIRECTION                             M                          0            0  18 M                         0         6              ".
Definition b2828 : text := " 002029 SEGMENT SIZE AT NADIR IN Y DIRECTION                             M                          0            0  18 M                         0         6              ".
Definition b2829 : text := " 002030 METHOD OF CURRENT MEASUREMENT                                    CODE TABLE 2030            0            0   3 CODE TABLE 2030           0         1              ".
Definition b2830 : text := " 002031 DURATION AND TIME OF CURRENT MEASUREMENT                         CODE TABLE 2031            0            0   5 CODE TABLE 2031           0         2              ".
Definition b2831 : text := " 002032 INDICATOR FOR DIGITIZATION                                       CODE TABLE 2032            0            0   2 CODE TABLE 2032           0         1              ".
Definition b2832 : text := " 002033 METHOD OF SALINITY/DEPTH MEASUREMENT                             CODE TABLE 2033            0            0   3 CODE TABLE 2033           0         1              ".
Definition b2833 : text := " 002034 DROGUE TYPE                                                      CODE TABLE 2034            0            0   5 CODE TABLE 2034           0         2              ".
Definition b2834 : text := " 002035 CABLE LENGTH                                                     M                          0            0   9 M                         0         3              ".
Definition b2835 : text := " 002036 BUOY TYPE                                                        CODE TABLE 2036            0            0   2 CODE TABLE 2036           0         1              ".
Definition b2836 : text := " 002037 METHOD OF TIDAL OBSERVATION                                      CODE TABLE 2037            0            0   3 CODE TABLE 2037           0         1              ".
Definition b2837 : text := " 002038 METHOD OF WATER TEMPERATURE AND/OR SALINITY MEASUREMENT          CODE TABLE 2038            0            0   4 CODE TABLE 2038           0         2              ".
Definition b2838 : text := " 002039 METHOD OF WET-BULB TEMPERATURE MEASUREMENT                       CODE TABLE 2039            0            0   3 CODE TABLE 2039           0         1              ".
Definition b2839 : text := " 002040 METHOD OF REMOVING VELOCITY AND MOTION OF PLATFORM FROM CURRENT  CODE TABLE 2040            0            0   4 CODE TABLE 2040           0         2              ".
Definition b2840 : text := " 002041 METHOD FOR ESTIMATING REPORTS RELATED TO SYNOPTIC FEATURES       CODE TABLE 2041            0            0   6 CODE TABLE 2041           0         2              ".
Definition b2841 : text := " 002042 INDICATOR FOR SEA SURFACE CURRENT SPEED                          CODE TABLE 2042            0            0   2 CODE TABLE 2042           0         1              ".
Definition b2842 : text := " 002044 INDICATOR FOR METHOD OF CALCULATING SPECTRAL WAVE DATA           CODE TABLE 2044            0            0   4 CODE TABLE 2044           0         2              ".
Definition b2843 : text := " 002045 INDICATOR FOR TYPE OF PLATFORM                                   CODE TABLE 2045            0            0   4 CODE TABLE 2045           0         2              ".
Definition b2844 : text := " 002046 WAVE MEASUREMENT INSTRUMENTATION                                 CODE TABLE 2046            0            0   4 CODE TABLE 2046           0         2              ".
Definition b2845 : text := " 002048 SATELLITE SENSOR INDICATOR                                       CODE TABLE 2048            0            0   4 CODE TABLE 2048           0         2              ".
Definition b2846 : text := " 002049 GEOSTATIONARY SATELLITE DATA-PROCESSING TECHNIQUE USED           FLAG TABLE 2049            0            0   8 FLAG TABLE 2049           0         3              ".
Definition b2847 : text := " 002050 GEOSTATIONARY SOUNDER SATELLITE CHANNELS USED                    FLAG TABLE 2050            0            0  20 FLAG TABLE 2050           0         7              ".
Definition b2848 : text := " 002051 INDICATOR TO SPECIFY OBSERVING METHOD FOR EXTREME TEMPERATURES   CODE TABLE 2051            0            0   4 CODE TABLE 2051           0         2              ".
Definition b2849 : text := " 002052 GEOSTATIONARY IMAGER SATELLITE CHANNELS USED                     FLAG TABLE 2052            0            0   6 FLAG TABLE 2052           0         2              ".
Definition b2850 : text := " 002053 GOES-I/M BRIGHTNESS TEMPERATURE CHARACTERISTICS                  CODE TABLE 2053            0            0   4 CODE TABLE 2053           0         2              ".
Definition b2851 : text := " 002054 GOES-I/M SOUNDINGS PARAMETER CHARACTERISTICS                     CODE TABLE 2054            0            0   4 CODE TABLE 2054           0         2              ".
Definition b2852 : text := " 002055 GEOSTATIONARY SOUNDINGS STATISTICAL PARAMETERS                   CODE TABLE 2055            0            0   4 CODE TABLE 2055           0         2              ".
Definition b2853 : text := " 002056 GEOSTATIONARY SOUNDINGS ACCURACY STATISTICS                      CODE TABLE 2056            0            0   4 CODE TABLE 2056           0         2              ".
Definition b2854 : text := " 002057 ORIGIN OF FIRST GUESS INFORMATION FOR GOES-I/M SOUNDINGS         CODE TABLE 2057            0            0   4 CODE TABLE 2057           0         2              ".
Definition b2855 : text := " 002058 VALID TIMES OF FIRST GUESS INFORMATION FOR GOES-I/M SOUNDINGS    CODE TABLE 2058            0            0   4 CODE TABLE 2058           0         2              ".
Definition b2856 : text := " 002059 ORIGIN OF ANALYSIS INFORMATION FOR GOES-I/M SOUNDINGS            CODE TABLE 2059            0            0   4 CODE TABLE 2059           0         2              ".
Definition b2857 : text := " 002060 ORIGIN OF SURFACE INFORMATION FOR GOES-I/M SOUNDINGS             CODE TABLE 2060            0            0   4 CODE TABLE 2060           0         2              ".
Definition b2858 : text := " 002061 AIRCRAFT NAVIGATIONAL SYSTEM                                     CODE TABLE 2061            0            0   3 CODE TABLE 2061           0         1              ".
Definition b2859 : text := " 002062 TYPE OF AIRCRAFT DATA RELAY SYSTEM                               CODE TABLE 2062            0            0   4 CODE TABLE 2062           0         2              ".
Definition b2860 : text := " 002063 AIRCRAFT ROLL ANGLE                                              DEGREE                     2       -18000  16 DEGREE                    2         5              ".
Definition b2861 : text := " 002064 AIRCRAFT ROLL ANGLE QUALITY                                      CODE TABLE 2064            0            0   2 CODE TABLE 2064           0         1              ".
Definition b2862 : text := " 002065 ACARS GROUND RECEIVING STATION                                   CCITTIA5                   0            0  40 CHARACTER                 0         5              ".
Definition b2863 : text := " 002066 RADIOSONDE GROUND RECEIVING SYSTEM                               CODE TABLE 2066            0            0   6 CODE TABLE 2066           0         2              ".
Definition b2864 : text := " 002067 RADIOSONDE OPERATING FREQUENCY                                   Hz                        -5            0  15 Hz                       -5         5              ".
Definition b2865 : text := " 002070 ORIGINAL SPECIFICATION OF LATITUDE/LONGITUDE                     CODE TABLE 2070            0            0   4 CODE TABLE 2070           0         2              ".
Definition b2866 : text := " 002071 SPECTROGRAPHIC WAVELENGTH                                        M                         13            0  30 M                        13        10              ".
Definition b2867 : text := " 002080 BALLOON MANUFACTURER                                             CODE TABLE 2080            0            0   6 CODE TABLE 2080           0         2              ".
Definition b2868 : text := " 002081 TYPE OF BALLOON                                                  CODE TABLE 2081            0            0   5 CODE TABLE 2081           0         2              ".
Definition b2869 : text := " 002082 WEIGHT OF BALLOON                                                KG                         3            0  12 KG                        3         4              ".
Definition b2870 : text := " 002083 TYPE OF BALLOON SHELTER                                          CODE TABLE 2083            0            0   4 CODE TABLE 2083           0         2              ".
Definition b2871 : text := " 002084 TYPE OF GAS USED IN BALLOON                                      CODE TABLE 2084            0            0   4 CODE TABLE 2084           0         2              ".
Definition b2872 : text := " 002085 AMOUNT OF GAS USED IN BALLOON                                    KG                         3            0  13 KG                        3         4              ".
Definition b2873 : text := " 002086 BALLOON FLIGHT TRAIN LENGTH                                      M                          1            0  10 M                         1         4              ".
Definition b2874 : text := " 002091 ENTRY SENSOR 4/20 MA                                             A                          4            0  10 A                         4         3              ".
Definition b2875 : text := " 002095 TYPE OF PRESSURE SENSOR                                          CODE TABLE 2095            0            0   5 CODE TABLE 2095           0         2              ".
Definition b2876 : text := " 002096 TYPE OF TEMPERATURE SENSOR                                       CODE TABLE 2096            0            0   5 CODE TABLE 2096           0         2              ".
Definition b2877 : text := " 002097 TYPE OF HUMIDITY SENSOR                                          CODE TABLE 2097            0            0   5 CODE TABLE 2097           0         2              ".
Definition b2878 : text := " 002099 POLARISATION                                                     CODE TABLE 2099            0            0   3 CODE TABLE 2099           0         1              ".
Definition b2879 : text := " 002100 RADAR CONSTANT                                                   dB                         1            0  12 dB                        1         4              ".
Definition b2880 : text := " 002101 TYPE OF ANTENNA                                                  CODE TABLE 2101            0            0   4 CODE TABLE 2101           0         2              ".
Definition b2881 : text := " 002102 ANTENNA HEIGHT ABOVE TOWER BASE                                  M                          0            0   8 M                         0         3              ".
Definition b2882 : text := " 002103 RADOME                                                           FLAG TABLE 2103            0            0   2 FLAG TABLE 2103           0         1              ".
Definition b2883 : text := " 002104 ANTENNA POLARISATION                                             CODE TABLE 2104            0            0   4 CODE TABLE 2104           0         2              ".
Definition b2884 : text := " 002105 MAXIMUM ANTENNA GAIN                                             dB                         0            0   6 dB                        0         2              ".
Definition b2885 : text := " 002106 3-DB BEAMWIDTH                                                   DEGREE                     1            0   6 DEGREE                    1         2              ".
Definition b2886 : text := " 002107 SIDELOBE SUPPRESSION                                             dB                         0            0   6 dB                        0         2              ".
Definition b2887 : text := " 002108 CROSSPOL DISCRIMINATION (ON AXIS)                                dB                         0            0   6 dB                        0         2              ".
Definition b2888 : text := " 002109 ANTENNA SPEED (AZIMUTH)                                          DEGREE/S                   2            0  12 DEGREE/S                  2         4              ".
Definition b2889 : text := " 002110 ANTENNA SPEED (ELEVATION)                                        DEGREE/S                   2            0  12 DEGREE/S                  2         4              ".
Definition b2890 : text := " 002111 RADAR INCIDENCE ANGLE                                            DEGREE                     1            0  10 DEGREE                    1         4              ".
Definition b2891 : text := " 002112 RADAR LOOK ANGLE                                                 DEGREE                     1            0  12 DEGREE                    1         4              ".
Definition b2892 : text := " 002113 NUMBER OF AZIMUTH LOOKS                                          NUMERIC                    0            0   4 NUMERIC                   0         2              ".
Definition b2893 : text := " 002114 ANTENNA EFFECTIVE SURFACE AREA                                   M**2                       0            0  15 M**2                      0         5              ".
Definition b2894 : text := " 002115 TYPE OF SURFACE OBSERVING EQUIPMENT                              CODE TABLE 2115            0            0   5 CODE TABLE 2115           0         2              ".
Definition b2895 : text := " 002116 PERCENTAGE OF 320 MHZ BAND PROCESSED                             %                          0            0   7 %                         0         3              ".
Definition b2896 : text := " 002117 PERCENTAGE OF 80 MHZ BAND PROCESSED                              %                          0            0   7 %                         0         3              ".
Definition b2897 : text := " 002118 PERCENTAGE OF 20 MHZ BAND PROCESSED                              %                          0            0   7 %                         0         3              ".
Definition b2898 : text := " 002119 RA-2 INSTRUMENT OPERATIONS                                       CODE TABLE 2119            0            0   3 CODE TABLE 2119           0         1              ".
Definition b2899 : text := " 002120 OCEAN WAVE FREQUENCY                                             Hz                         3            0  10 Hz                        3         4              ".
Definition b2900 : text := " 002121 MEAN FREQUENCY                                                   Hz                        -8            0   7 Hz                       -8         3              ".
Definition b2901 : text := " 002122 FREQUENCY AGILITY RANGE                                          Hz                        -6         -128   8 Hz                       -6         3              ".
Definition b2902 : text := " 002123 PEAK POWER                                                       W                         -4            0   7 W                        -4         3              ".
Definition b2903 : text := " 002124 AVERAGE POWER                                                    W                         -1            0   7 W                        -1         3              ".
Definition b2904 : text := " 002125 PULSE REPETITION FREQUENCY                                       Hz                        -1            0   8 Hz                       -1         3              ".
Definition b2905 : text := " 002126 PULSE WIDTH                                                      S                          7            0   6 S                         7         2              ".
Definition b2906 : text := " 002127 RECEIVER INTERMEDIATE FREQUENCY                                  Hz                        -6            0   7 Hz                       -6         3              ".
Definition b2907 : text := " 002128 INTERMEDIATE FREQUENCY BANDWIDTH                                 Hz                        -5            0   6 Hz                       -5         2              ".
Definition b2908 : text := " 002129 MINIMUM DETECTABLE SIGNAL                                        dB                         0         -150   5 dB                        0         3              ".
Definition b2909 : text := " 002130 DYNAMIC RANGE                                                    dB                         0            0   7 dB                        0         3              ".
Definition b2910 : text := " 002131 SENSITIVITY TIME CONTROL (STC)                                   FLAG TABLE 2131            0            0   2 FLAG TABLE 2131           0         1              ".
Definition b2911 : text := " 002132 AZIMUTH POINTING ACCURACY                                        DEGREE                     2            0   6 DEGREE                    2         2              ".
Definition b2912 : text := " 002133 ELEVATION POINTING ACCURACY                                      DEGREE                     2            0   6 DEGREE                    2         2              ".
Definition b2913 : text := " 002134 ANTENNA BEAM AZIMUTH                                             DEGREE                     2            0  16 DEGREE                    2         5              ".
Definition b2914 : text := " 002135 ANTENNA ELEVATION                                                DEGREE                     2        -9000  15 DEGREE                    2         5              ".
Definition b2915 : text := " 002136 RANGE PROCESSED BY RANGE ATTENUATION CORRECTION                  M                         -3            0  16 M                        -3         5              ".
Definition b2916 : text := " 002140 SATELLITE RADAR BEAM AZIMUTH ANGLE                               DEGREE                     0            0   9 DEGREE                    0         3              ".
Definition b2917 : text := " 002141 MEASUREMENT TYPE                                                 CCITTIA5                   0            0  24 CHARACTER                 0         3              ".
Definition b2918 : text := " 002142 OZONE INSTRUMENT SERIAL NUMBER/ IDENTIFICATION                   CCITTIA5                   0            0  32 CHARACTER                 0         4              ".
Definition b2919 : text := " 002143 OZONE INSTRUMENT TYPE                                            CODE TABLE 2143            0            0   7 CODE TABLE 2143           0         3              ".
Definition b2920 : text := " 002144 LIGHT SOURCE TYPE FOR BREWER SPECTRO PHOTOMETER                  CODE TABLE 2144            0            0   4 CODE TABLE 2144           0         2              ".
Definition b2921 : text := " 002145 WAVE LENGTH SETTING FOR DOBSON INSTRUMENTS                       CODE TABLE 2145            0            0   4 CODE TABLE 2145           0         2              ".
Definition b2922 : text := " 002146 SOURCE CONDITIONS FOR DOBSON INSTRUMENTS                         CODE TABLE 2146            0            0   4 CODE TABLE 2146           0         2              ".
Definition b2923 : text := " 002148 DATA COLLECTION AND/OR LOCATION SYSTEM                           CODE TABLE 2148            0            0   5 CODE TABLE 2148           0         2              ".
Definition b2924 : text := " 002149 TYPE OF DATA BUOY                                                CODE TABLE 2149            0            0   6 CODE TABLE 2149           0         2              ".
Definition b2925 : text := " 002150 TOVS/ATOVS/AVHRR INSTRUMENTATION CHANNEL NUMBER                  CODE TABLE 2150            0            0   6 CODE TABLE 2150           0         2              ".
Definition b2926 : text := " 002151 RADIOMETER IDENTIFIER                                            CODE TABLE 2151            0            0  11 CODE TABLE 2151           0         4              ".
Definition b2927 : text := " 002152 SATELLITE INSTRUMENT USED IN DATA PROCESSING(6)                  FLAG TABLE 2152            0            0  31 FLAG TABLE 2152           0        10              ".
Definition b2928 : text := " 002153 SATELLITE CHANNEL CENTRE FREQUENCY                               Hz                        -8            0  26 Hz                       -8         8              ".
Definition b2929 : text := " 002154 SATELLITE CHANNEL BAND WIDTH                                     Hz                        -8            0  26 Hz                       -8         8              ".
Definition b2930 : text := " 002156 PERCENTAGE OF VALID KU OCEAN RETRACKER MEASUREMENTS              %                          0            0   7 %                         0         3              ".
Definition b2931 : text := " 002157 PERCENTAGE OF VALID S OCEAN RETRACKER MEASUREMENTS               %                          0            0   7 %                         0         3              ".
Definition b2932 : text := " 002158 RA-2 INSTRUMENT                                                  FLAG TABLE 2158            0            0   9 FLAG TABLE 2158           0         3              ".
Definition b2933 : text := " 002159 MWR INSTRUMENT                                                   FLAG TABLE 2159            0            0   8 FLAG TABLE 2159           0         3              ".
Definition b2934 : text := " 002160 WAVE LENGTH OF THE RADAR                                         CODE TABLE 2160            0            0   4 CODE TABLE 2160           0         2              ".
Definition b2935 : text := " 002163 HEIGHT ASSIGNMENT METHOD                                         CODE TABLE 2163            0            0   4 CODE TABLE 2163           0         2              ".
Definition b2936 : text := " 002164 TRACER CORRELATION METHOD                                        CODE TABLE 2164            0            0   3 CODE TABLE 2164           0         1              ".
Definition b2937 : text := " 002165 RADIANCE FLAG                                                    FLAG TABLE 2165            0            0  15 FLAG TABLE 2165           0         5              ".
Definition b2938 : text := " 002166 RADIANCE TYPE                                                    CODE TABLE 2166            0            0   4 CODE TABLE 2166           0         2              ".
Definition b2939 : text := " 002167 RADIANCE COMPUTATIONAL METHOD                                    CODE TABLE 2167            0            0   4 CODE TABLE 2167           0         2              ".
Definition b2940 : text := " 002168 HYDROSTATIC PRESSURE OF LOWER END OF CABLE (THERMISTOR STRING)   PA                        -3            0  16 KPA                       0         5              ".
Definition b2941 : text := " 002169 ANEMOMETER TYPE                                                  CODE TABLE 2169            0            0   4 CODE TABLE 2169           0         2              ".
Definition b2942 : text := " 002172 PRODUCT TYPE FOR RETRIEVED ATMOSPHERIC GASES                     CODE TABLE 2172            0            0   8 CODE TABLE 2172           0         3              ".
Definition b2943 : text := " 002173 SQUARE OF THE OFF NADIR ANGLE (7)                                DEGREE2                    4            0  10 DEGREE2                   4         4              ".
Definition b2944 : text := " 002174 MEAN ACROSS TRACK PIXEL NUMBER                                   NUMERIC                    0            0   9 NUMERIC                   0         3              ".
Definition b2945 : text := " 002175 METHOD OF PRECIPITATION MEASUREMENT                              CODE TABLE 2175            0            0   4 CODE TABLE 2175           0         2              ".
Definition b2946 : text := " 002176 METHOD OF STATE OF GROUND MEASUREMENT                            CODE TABLE 2176            0            0   4 CODE TABLE 2176           0         2              ".
Definition b2947 : text := " 002177 METHOD OF SNOW DEPTH MEASUREMENT                                 CODE TABLE 2177            0            0   4 CODE TABLE 2177           0         2              ".
Definition b2948 : text := " 002178 METHOD OF LIQUID CONTENT MEASUREMENT OF PRECIPITATION            CODE TABLE 2178            0            0   4 CODE TABLE 2178           0         2              ".
Definition b2949 : text := " 002179 TYPE OF SKY CONDITION ALGORITHM                                  CODE TABLE 2179            0            0   4 CODE TABLE 2179           0         2              ".
Definition b2950 : text := " 002180 MAIN PRESENT WEATHER DETECTING SYSTEM                            CODE TABLE 2180            0            0   4 CODE TABLE 2180           0         2              ".
Definition b2951 : text := " 002181 SUPPLEMENTARY PRESENT WEATHER SENSOR                             FLAG TABLE 2181            0            0  21 FLAG TABLE 2181           0         7              ".
Definition b2952 : text := " 002182 VISIBILITY MEASUREMENT SYSTEM                                    CODE TABLE 2182            0            0   4 CODE TABLE 2182           0         2              ".
Definition b2953 : text := " 002183 CLOUD DETECTION SYSTEM                                           CODE TABLE 2183            0            0   4 CODE TABLE 2183           0         2              ".
Definition b2954 : text := " 002184 TYPE OF LIGHTNING DETECTION SENSOR                               CODE TABLE 2184            0            0   4 CODE TABLE 2184           0         2              ".
Definition b2955 : text := " 002185 METHOD OF EVAPORATION MEASUREMENT                                CODE TABLE 2185            0            0   4 CODE TABLE 2185           0         2              ".
Definition b2956 : text := " 002186 CAPABILITY TO DETECT PRECIPITATION PHENOMENA                     FLAG TABLE 2186            0            0  30 FLAG TABLE 2186           0        10              ".
Definition b2957 : text := " 002187 CAPABILITY TO DETECT OTHER WEATHER PHENOMENA                     FLAG TABLE 2187            0            0  18 FLAG TABLE 2187           0         6              ".
Definition b2958 : text := " 002188 CAPABILITY TO DETECT OBSCURATION                                 FLAG TABLE 2188            0            0  21 FLAG TABLE 2188           0         7              ".
Definition b2959 : text := " 002189 CAPABILITY TO DISCRIMINATE LIGHTNING STRIKES                     FLAG TABLE 2189            0            0  12 FLAG TABLE 2189           0         4              ".
Definition b2960 : text := " 002190 LAGRANGIAN DRIFTER SUBMERGENCE (% TIME SUBMERGED)                %                          0            0   7 %                         0         3              ".
Definition b2961 : text := " 002192 SAR AZIMUTH ANGLE                                                DEGREE                     0            0   9".
Definition b2962 : text := " 002193 1D VAR SATELLITE CHANNEL(S) USED                                 FLAG TABLE 2193            0            0  28                                                    ".
Definition b2963 : text := " 002194 CONSTANT LEVEL BALLOON TYPE                                      CODE TABLE 2194            0            0   4                                                    ".
Definition b2964 : text := " 002195 TYPE OF SATELLITE INSTRUMENTATION                                CODE TABLE 2195            0            0   4                                                    ".
Definition b2965 : text := " 002196 SATELLITE CLASSIFICATION                                         CODE TABLE 2196            0            0   9                                                    ".
Definition b2966 : text := " 002197 SATELLITE CHANNEL CENTRE FREQUENCY                               Hz                        -8            0  26                                                    ".
Definition b2967 : text := " 002198 SATELLITE CHANNEL BAND WIDTH                                     Hz                        -8            0  26                                                    ".
Definition b2968 : text := " 002199 INTEGRATED MEAN HUMIDITY COMPUTATIONAL METHOD                    CODE TABLE 2199            0            0   4                                                    ".
Definition b2969 : text := " 002200 LATITUDINAL RESOLUTION                                           DEGREE                     5            0  25                                                    ".
Definition b2970 : text := " 002201 LONGITUDINAL RESOLUTION                                          DEGREE                     5            0  25                                                    ".
Definition b2971 : text := " 002202 SIMULATED DATA PROCESSING TECHNIQUE USED                         FLAG TABLE 2202            0            0   4                                                    ".
Definition b2972 : text := " 002205 LATITUDINAL RESOLUTION                                           DEGREE                     3            0   9                                                    ".
Definition b2973 : text := " 002206 LONGITUDINAL RESOLUTION                                          DEGREE                     3            0   9                                                    ".
Definition b2974 : text := " 002207 TYPE OF SCAN                                                     CODE TABLE 2207            0            0   3                                                    ".
Definition b2975 : text := " 002220 DATA PRODUCER                                                    CODE TABLE 2220            0            0   9                                                    ".
Definition b2976 : text := " 002221 SEGMENT SIZE AT NADIR IN X DIRECTION                             M                          0            0  18                                                    ".
Definition b2977 : text := " 002222 SEGMENT SIZE AT NADIR IN Y DIRECTION                             M                          0            0  18                                                    ".
Definition b2978 : text := " 002223 TOVS/ATOVS/AVHRR CHANNEL NUMBER                                  CODE TABLE 2223            0            0   6                                                    ".
Definition b2979 : text := " 002231 HEIGHT ASSIGNMENT METHOD                                         CODE TABLE 2231            0            0   4                                                    ".
Definition b2980 : text := " 002232 TRACER CORRELATION METHOD                                        CODE TABLE 2232            0            0   3                                                    ".
Definition b2981 : text := " 002240 TYPE OF TERMODYNAMIC SENSING                                     CODE TABLE 2240            0            0   8                                                    ".
Definition b2982 : text := " 002241 TYPE OF ROCKET MOTOR                                             CODE TABLE 2241            0            0   3                                                    ".
Definition b2983 : text := " 002242 TYPE OF WIND SENSING EQUIPMENT                                   CODE TABLE 2242            0            0   8                                                    ".
Definition b2984 : text := " 002243 TERMODYNAMIC CORRECTION TECHNIQUE                                CODE TABLE 2243            0            0   3                                                    ".
Definition b2985 : text := " 002244 WIND CORRECTION TECHNIQUE                                        CODE TABLE 2244            0            0   3                                                    ".
Definition b2986 : text := " 002245 METHOD OF REDUCING OF DATA                                       CODE TABLE 2245            0            0   4                                                    ".
Definition b2987 : text := " 002251 RADIANCE COMPUTATIONAL METHOD                                    CODE TABLE 2251            0            0   4                                                    ".
Definition b2988 : text := " 002252 SATELLITE INSTRUMENT DATA USED IN PROCESSING                     FLAG TABLE 2252            0            0  31                                                    ".
Definition b2989 : text := " 002253 HUMIDITY COMPUTATIONAL METHOD                                    CODE TABLE 2253            0            0   8                                                    ".
Definition b2990 : text := " 002254 RADIANCE TYPE                                                    CODE TABLE 2254            0            0   4                                                    ".
Definition b2991 : text := " 004001 YEAR                                                             YEAR                       0            0  12 YEAR                      0         4              ".
Definition b2992 : text := " 004002 MONTH                                                            MONTH                      0            0   4 MONTH                     0         2              ".
Definition b2993 : text := " 004003 DAY                                                              DAY                        0            0   6 DAY                       0         2              ".
Definition b2994 : text := " 004004 HOUR                                                             HOUR                       0            0   5 HOUR                      0         2              ".
Definition b2995 : text := " 004005 MINUTE                                                           MINUTE                     0            0   6 MINUTE                    0         2              ".
Definition b2996 : text := " 004006 SECOND                                                           SECOND                     0            0   6 SECOND                    0         2              ".
Definition b2997 : text := " 004007 SECONDS WITHIN A MINUTE (MICROSECOND ACCURACY)                   SECOND                     6            0  26 S                         6         8              ".
Definition b2998 : text := " 004011 TIME INCREMENT                                                   YEAR                       0        -1024  11 YEAR                      0         4              ".
Definition b2999 : text := " 004012 TIME INCREMENT                                                   MONTH                      0        -1024  11 MONTH                     0         4              ".
Definition b3000 : text := " 004013 TIME INCREMENT                                                   DAY                        0        -1024  11 DAY                       0         4              ".
Definition b3001 : text := " 004014 TIME INCREMENT                                                   HOUR                       0        -1024  11 HOUR                      0         4              ".
Definition b3002 : text := " 004015 TIME INCREMENT                                                   MINUTE                     0        -2048  12 MINUTE                    0         4              ".
Definition b3003 : text := " 004016 TIME INCREMENT                                                   SECOND                     0        -4096  13 SECOND                    0         4              ".
Definition b3004 : text := " 004017 REFERENCE TIME PERIOD FOR ACCUMULATED OR EXTREME DATA            MINUTE                     0        -1440  12 MINUTE                    0         4              ".
Definition b3005 : text := " 004021 TIME PERIOD OR DISPLACEMENT                                      YEAR                       0        -1024  11 YEAR                      0         4              ".
Definition b3006 : text := " 004022 TIME PERIOD OR DISPLACEMENT                                      MONTH                      0        -1024  11 MONTH                     0         4              ".
Definition b3007 : text := " 004023 TIME PERIOD OR DISPLACEMENT                                      DAY                        0        -1024  11 DAY                       0         4              ".
Definition b3008 : text := " 004024 TIME PERIOD OR DISPLACEMENT                                      HOUR                       0        -2048  12 HOUR                      0         4              ".
Definition b3009 : text := " 004025 TIME PERIOD OR DISPLACEMENT                                      MINUTE                     0        -2048  12 MINUTE                    0         4              ".
Definition b3010 : text := " 004026 TIME PERIOD OR DISPLACEMENT                                      SECOND                     0        -4096  13 SECOND                    0         4              ".
Definition b3011 : text := " 004031 DURATION OF TIME RELATING TO FOLLOWING VALUE                     HOUR                       0            0   8 HOUR                      0         3              ".
Definition b3012 : text := " 004032 DURATION OF TIME RELATING TO FOLLOWING VALUE                     MINUTE                     0            0   6 MINUTE                    0         2              ".
Definition b3013 : text := " 004041 TIME DIFFERENCE, UTC -LMT (SEE NOTE 6)                           MINUTE                     0        -1440  12 MINUTE                    0         4              ".
Definition b3014 : text := " 004043 DAY OF THE YEAR                                                  DAY                        0            0   9 DAY                       0         3              ".
Definition b3015 : text := " 004051 PRINCIPAL TIME OF DAILY READING OF MAXIMUM TEMPERATURE           HOUR                       0            0   5 HOUR                      0         2              ".
Definition b3016 : text := " 004052 PRINCIPAL TIME OF DAILY READING OF MINIMUM TEMPERATURE           HOUR                       0            0   5 HOUR                      0         2              ".
Definition b3017 : text := " 004053 NUMBER OF DAYS WITH PRECIPITATION EQUAL TO OR MORE THAN 1 MM     NUMERIC                    0            0   6 NUMERIC                   0         2              ".
Definition b3018 : text := " 004059 TIMES OF OBSERVATION USED TO COMPUTE THE REPORTED MEAN VALUES    FLAG TABLE 4059            0            0   6 FLAG TABLE 4059           0         2              ".
Definition b3019 : text := " 004065 SHORT TIME INCREMENT                                             MINUTE                     0         -128   8 MINUTE                    0         2              ".
Definition b3020 : text := " 004073 SHORT TIME PERIOD OR DISPLACEMENT                                DAY                        0         -128   8 DAY                       0         2              ".
Definition b3021 : text := " 004074 SHORT TIME PERIOD OR DISPLACEMENT                                HOUR                       0         -128   8 HOUR                      0         2              ".
Definition b3022 : text := " 004075 SHORT TIME PERIOD OR DISPLACEMENT                                MINUTE                     0         -128   8 MINUTE                    0         2              ".
Definition b3023 : text := " 004080 AVERAGING PERIOD FOR FOLLOWING VALUE                             CODE TABLE 4080            0            0   4 CODE TABLE 4080           0         2              ".
Definition b3024 : text := " 004086 LONG TIME PERIOD OR DISPLACEMENT                                 SECOND                     0        -8192  15 SECOND                    0         5              ".
Definition b3025 : text := " 005001 LATITUDE (HIGH ACCURACY)                                         DEGREE                     5     -9000000  25 DEGREE                    5         7              ".
Definition b3026 : text := " 005002 LATITUDE (COARSE ACCURACY)                                       DEGREE                     2        -9000  15 DEGREE                    2         4              ".
Definition b3027 : text := " 005011 LATITUDE INCREMENT (HIGH ACCURACY)                               DEGREE                     5     -9000000  25 DEGREE                    5         7              ".
Definition b3028 : text := " 005012 LATITUDE INCREMENT (COARSE ACCURACY)                             DEGREE                     2        -9000  15 DEGREE                    2         4              ".
Definition b3029 : text := " 005015 LATITUDE DISPLACEMENT (HIGH ACCURACY)                            DEGREE                     5     -9000000  25 DEGREE                    5         7              ".
Definition b3030 : text := " 005016 LATITUDE DISPLACEMENT (COARSE ACCURACY)                          DEGREE                     2        -9000  15 DEGREE                    2         4              ".
Definition b3031 : text := " 005021 BEARING OR AZIMUTH                                               DEGREE TRUE                2            0  16 DEGREE TRUE               2         5              ".
Definition b3032 : text := " 005022 SOLAR AZIMUTH                                                    DEGREE TRUE                2            0  16 DEGREE TRUE               2         5              ".
Definition b3033 : text := " 005023 SUN TO SATELLITE AZIMUTH DIFFERENCE                              DEGREE                     1        -1800  12 DEGREE                    1         4              ".
Definition b3034 : text := " 005030 DIRECTION (SPECTRAL)                                             DEGREE                     0            0  12 DEGREE                    0         4              ".
Definition b3035 : text := " 005031 ROW NUMBER                                                       NUMERIC                    0            0  12 NUMERIC                   0         4              ".
Definition b3036 : text := " 005033 PIXEL SIZE ON HORIZONTAL - 1                                     M                         -1            0  16 M                        -1         5              ".
Definition b3037 : text := " 005034 ALONG TRACK ROW NUMBER                                           NUMERIC                    0            0  11 NUMERIC                   0         4              ".
Definition b3038 : text := " 005036 SHIP TRANSECT NUMBER ACCORDING TO SOOP                           NUMERIC                    0            0   7 NUMERIC                   0         2              ".
Definition b3039 : text := " 005040 ORBIT NUMBER                                                     NUMERIC                    0            0  24 NUMERIC                   0         8              ".
Definition b3040 : text := " 005041 SCAN LINE NUMBER                                                 NUMERIC                    0            0   8 NUMERIC                   0         3              ".
Definition b3041 : text := " 005042 CHANNEL NUMBER                                                   NUMERIC                    0            0   6 NUMERIC                   0         2^M            ".
Definition b3042 : text := " 005043 FIELD OF VIEW NUMBER                                             NUMERIC                    0            0   8 NUMERIC                   0         3              ".
Definition b3043 : text := " 005044 SATELLITE CYCLE NUMBER                                           NUMERIC                    0            0  11 NUMERIC                   0         4              ".
Definition b3044 : text := " 005045 FIELD OF REGARD NUMBER                                           NUMERIC                    0            0   8 NUMERIC                   0         3              ".
Definition b3045 : text := " 005052 CHANNEL NUMBER INCREMENT                                         NUMERIC                    0            0   5 NUMERIC                   0         2              ".
Definition b3046 : text := " 005053 FIELD OF VIEW NUMBER INCREMENT                                   NUMERIC                    0            0   5 NUMERIC                   0         2              ".
Definition b3047 : text := " 005060 Y ANGULAR POSITION FROM CENTRE OF GRAVITY                        DEGREE                     6     -8000000  24 DEGREE                    6         8              ".
Definition b3048 : text := " 005061 Z ANGULAR POSITION FROM CENTRE OF GRAVITY                        DEGREE                     6     -8000000  24 DEGREE                    6         8              ".
Definition b3049 : text := " 005193 ALONG TRACK ROW NUMBER AT 50 KM                                  NUMERIC                    0            0  10 NUMERIC                   0         4              ".
Definition b3050 : text := " 005194 ALONG TRACK ROW NUMBER AT 25 KM                                  NUMERIC                    0            0  11 NUMERIC                   0         4              ".
Definition b3051 : text := " 005195 ENSEMBLE MEMBER NUMBER                                           NUMERIC                    0            0   7 NUMERIC                   0         3              ".
Definition b3052 : text := " 005196 SCAN ANGLE                                                       DEGREE                     1        -1800  12 DEGREE                    1         4              ".
Definition b3053 : text := " 005217 LOCATION OF PLATFORM, X                                          M                          2  -1073741824  31 M                         2        10              ".
Definition b3054 : text := " 005232 DIRECTION (SPECTRAL)                                             DEGREE                     2            0  16 DEGREE                    2         5              ".
Definition b3055 : text := " 006001 LONGITUDE (HIGH ACCURACY)                                        DEGREE                     5    -18000000  26 DEGREE                    5         8              ".
Definition b3056 : text := " 006002 LONGITUDE (COARSE ACCURACY)                                      DEGREE                     2       -18000  16 DEGREE                    2         5              ".
Definition b3057 : text := " 006011 LONGITUDE INCREMENT (HIGH ACCURACY)                              DEGREE                     5    -18000000  26 DEGREE                    5         8              ".
Definition b3058 : text := " 006012 LONGITUDE INCREMENT (COARSE ACCURACY)                            DEGREE                     2       -18000  16 DEGREE                    2         5              ".
Definition b3059 : text := " 006015 LONGITUDE DISPLACEMENT (HIGH ACCURACY)                           DEGREE                     5    -18000000  26 DEGREE                    5         8              ".
Definition b3060 : text := " 006016 LONGITUDE DISPLACEMENT (COARSE ACCURACY)                         DEGREE                     2       -18000  16 DEGREE                    2         5              ".
Definition b3061 : text := " 006021 DISTANCE                                                         M                         -1            0  13 M                        -1         4              ".
Definition b3062 : text := " 006030 WAVE NUMBER (SPECTRAL)                                           RAD/M                      5            0  13 RAD/M                     5         4              ".
Definition b3063 : text := " 006031 COLUMN NUMBER                                                    NUMERIC                    0            0  12 NUMERIC                   0         4              ".
Definition b3064 : text := " 006033 PIXEL SIZE ON HORIZONTAL - 2                                     M                         -1            0  16 M                        -1         5              ".
Definition b3065 : text := " 006034 CROSS-TRACK CELL NUMBER                                          NUMERIC                    0            0   7 NUMERIC                   0         3              ".
Definition b3066 : text := " 006040 RADIUS OF CONFIDENCE                                             M                          0            0  13 M                         0         4              ".
Definition b3067 : text := " 006193 CROSS TRACK CELL NUMBER AT 50 KM                                 NUMERIC                    0            0   6 NUMERIC                   0         2              ".
Definition b3068 : text := " 006194 CROSS TRACK CELL NUMBER AT 25 KM                                 NUMERIC                    0            0   7 NUMERIC                   0         3              ".
Definition b3069 : text := " 006217 LOCATION OF PLATFORM, Y                                          M                          2  -1073741824  31 M                         2        10              ".
Definition b3070 : text := " 006232 WAVENUMBER (SPECTRAL)                                            RADS/M                     5            0  13 ADS/M                     5         4              ".
Definition b3071 : text := " 007001 HEIGHT OF STATION (SEE NOTE 1)                                   M                          0         -400  15 M                         0         5              ".
Definition b3072 : text := " 007002 HEIGHT OR ALTITUDE                                               M                         -1          -40  16 M                        -1         5              ".
Definition b3073 : text := " 007003 GEOPOTENTIAL                                                     M**2/S**2                 -1         -400  17 M**2/S**2                -1         6              ".
Definition b3074 : text := " 007004 PRESSURE                                                         PA                        -1            0  14 PA                       -1         5              ".
Definition b3075 : text := " 007005 HEIGHT INCREMENT                                                 M                          0         -400  12 M                         0         4              ".
Definition b3076 : text := " 007006 HEIGHT ABOVE STATION                                             M                          0            0  15 M                         0         5              ".
Definition b3077 : text := " 007007 HEIGHT                                                           M                          0        -1000  17 M                         0         6              ".
Definition b3078 : text := " 007008 GEOPOTENTIAL                                                     M**2/S**2                  0       -10000  20 M**2/S**2                 0         7              ".
Definition b3079 : text := " 007009 GEOPOTENTIAL HEIGHT                                              GPM                        0        -1000  17 GPM                       0         5              ".
Definition b3080 : text := " 007010 FLIGHT LEVEL                                                     M                          0        -1024  16 FT                       -1         5              ".
Definition b3081 : text := " 007012 GRID POINT ALTITUDE                                              M                          2       -50000  20 M                         2         7              ".
Definition b3082 : text := " 007021 ELEVATION (SEE NOTE 2)                                           DEGREE                     2        -9000  15 DEGREE                    2         5              ".
Definition b3083 : text := " 007022 SOLAR ELEVATION                                                  DEGREE                     2        -9000  15 DEGREE                    2         5              ".
Definition b3084 : text := " 007024 SATELLITE ZENITH ANGLE                                           DEGREE                     2        -9000  15 DEGREE                    2         5              ".
Definition b3085 : text := " 007025 SOLAR ZENITH ANGLE                                               DEGREE                     2        -9000  15 DEGREE                    2         5              ".
Definition b3086 : text := " 007026 SATELLITE ZENITH ANGLE                                           DEGREE                     4      -900000  21 DEGREE                    4         7              ".
Definition b3087 : text := " 007030 HEIGHT OF STATION GROUND ABOVE MEAN SEA LEVEL (SEE NOTE 3)       M                          1        -4000  17 M                         1         5              ".
Definition b3088 : text := " 007031 HEIGHT OF BAROMETER ABOVE MEAN SEA LEVEL (SEE NOTE 4)            M                          1        -4000  17 M                         1         5              ".
Definition b3089 : text := " 007032 HEIGHT OF SENSOR ABOVE LOCAL GROUND (OR DECK OF MARINE PLATFORM) M                          2            0  16 M                         2         5              ".
Definition b3090 : text := " 007033 HEIGHT OF SENSOR ABOVE WATER SURFACE (SEE NOTE 6)                M                          1            0  12 M                         1         4              ".
Definition b3091 : text := " 007040 IMPACT PARAMETER (SEE NOTE 8)                                    M                          1     62000000  22 M                         1         8              ".
Definition b3092 : text := " 007061 DEPTH BELOW LAND SURFACE                                         M                          2            0  14 M                         2         5              ".
Definition b3093 : text := " 007062 DEPTH BELOW SEA/WATER SURFACE                                    M                          1            0  17 M                         1         6              ".
Definition b3094 : text := " 007063 DEPTH BELOW SEA/WATER SURFACE                                    M                          2            0  20 M                         2         7              ".
Definition b3095 : text := " 007064 REPRESENTATIVE HEIGHT OF SENSOR ABOVE STATION (SEE NOTE 7)       M                          0            0   4 M                         0         2              ".
Definition b3096 : text := " 007065 WATER PRESSURE                                                   PA                        -3            0  17 PA                        0         6              ".
Definition b3097 : text := " 007070 DROGUE DEPTH                                                     M                          0            0  10 M                         0         4              ".
Definition b3098 : text := " 007217 LOCATION OF PLATFORM, Z                                          M                          2  -1073741824  31 M                         2        10              ".
Definition b3099 : text := " 008001 VERTICAL SOUNDING SIGNIFICANCE                                   FLAG TABLE 8001            0            0   7 FLAG TABLE 8001           0         3              ".
Definition b3100 : text := " 008002 VERTICAL SIGNIFICANCE (SURFACE OBSERVATIONS)                     CODE TABLE 8002            0            0   6 CODE TABLE 8002           0         2              ".
Definition b3101 : text := " 008003 VERTICAL SIGNIFICANCE (SATELLITE OBSERVATIONS)                   CODE TABLE 8003            0            0   6 CODE TABLE 8003           0         2              ".
Definition b3102 : text := " 008004 PHASE OF AIRCRAFT FLIGHT                                         CODE TABLE 8004            0            0   3 CODE TABLE 8004           0         1              ".
Definition b3103 : text := " 008005 METEOROLOGICAL ATTRIBUTE SIGNIFICANCE                            CODE TABLE 8005            0            0   4 CODE TABLE 8005           0         2              ".
Definition b3104 : text := " 008006 OZONE VERTICAL SOUNDING SIGNIFICANCE                             FLAG TABLE 8006            0            0   9 FLAG TABLE 8006           0         3              ".
Definition b3105 : text := " 008007 DIMENSIONAL SIGNIFICANCE                                         CODE TABLE 8007            0            0   4 CODE TABLE 8007           0         2              ".
Definition b3106 : text := " 008008 RADIATION VERTICAL SOUNDING SIGNIFICANCE                         FLAG TABLE 8008            0            0   9 FLAG TABLE 8008           0         3              ".
Definition b3107 : text := " 008009 DETAILED PHASE OF FLIGHT                                         CODE TABLE 8009            0            0   4 CODE TABLE 8009           0         2              ".
Definition b3108 : text := " 008010 SURFACE QUALIFIER (TEMPERATURE DATA)                             CODE TABLE 8010            0            0   5 CODE TABLE 8010           0         2              ".
Definition b3109 : text := " 008011 METEOROLOGICAL FEATURE                                           CODE TABLE 8011            0            0   6 CODE TABLE 8011           0         2              ".
Definition b3110 : text := " 008012 LAND/SEA QUALIFIER                                               CODE TABLE 8012            0            0   2 CODE TABLE 8012           0         1              ".
Definition b3111 : text := " 008013 DAY/NIGHT QUALIFIER                                              CODE TABLE 8013            0            0   2 CODE TABLE 8013           0         1              ".
Definition b3112 : text := " 008014 QUALIFIER FOR RUNWAY VISUAL RANGE                                CODE TABLE 8014            0            0   4 CODE TABLE 8014           0         2              ".
Definition b3113 : text := " 008016 CHANGE QUALIFIER OF A TREND-TYPE FORECAST OR AN AERODROME FORECA CODE TABLE 8016            0            0   3 CODE TABLE 8016           0         1              ".
Definition b3114 : text := " 008017 QUALIFIER OF THE TIME WHEN THE FORECAST CHANGE IS EXPECTED       CODE TABLE 8017            0            0   2 CODE TABLE 8017           0         1              ".
Definition b3115 : text := " 008018 SEAWINDS LAND/ICE SURFACE TYPE                                   FLAG TABLE 8018            0            0  17 FLAG TABLE 8018           0         6              ".
Definition b3116 : text := " 008019 QUALIFIER FOR FOLLOWING CENTRE IDENTIFIER                        CODE TABLE 8019            0            0   4 CODE TABLE 8019           0         2              ".
Definition b3117 : text := " 008020 TOTAL NUMBER OF MISSING ENTITIES (WITH RESPECT TO ACCUMULATION O NUMERIC                    0            0  16 NUMERIC                   0         5              ".
Definition b3118 : text := " 008021 TIME SIGNIFICANCE                                                CODE TABLE 8021            0            0   5 CODE TABLE 8021           0         2              ".
Definition b3119 : text := " 008022 TOTAL NUMBER (WITH RESPECT TO ACCUMULATION OR AVERAGE)           NUMERIC                    0            0  16 NUMERIC                   0         5              ".
Definition b3120 : text := " 008023 FIRST ORDER STATISTICS                                           CODE TABLE 8023            0            0   6 CODE TABLE 8023           0         2              ".
Definition b3121 : text := " 008024 DIFFERENCE STATISTICS                                            CODE TABLE 8024            0            0   6 CODE TABLE 8024           0         2              ".
Definition b3122 : text := " 008025 TIME DIFFERENCE QUALIFIER                                        CODE TABLE 8025            0            0   4 CODE TABLE 8025           0         2              ".
Definition b3123 : text := " 008026 MATRIX SIGNIFICANCE                                              CODE TABLE 8026            0            0   6 CODE TABLE 8026           0         2              ".
Definition b3124 : text := " 008029 REMOTLY SENSED SURFACE TYPE                                      CODE TABLE 8029            0            0   8 CODE TABLE 8029           0         3              ".
Definition b3125 : text := " 008030 MANUAL ON CODES (VOLUME I.1, SECTION C) CODE TABLE FROM WHICH DA NUMERIC                    0            0  13 NUMERIC                   0         4              ".
Definition b3126 : text := " 008031 DATA CATEGORY CREX TABLE A                                       NUMERIC                    0            0   8 NUMERIC                   0         3              ".
Definition b3127 : text := " 008033 METHOD OF DERIVATION OF PERCENTAGE CONFIDENCE                    CODE TABLE 8033            0            0   7 CODE TABLE 8033           0         3              ".
Definition b3128 : text := " 008035 TYPE OF MONITORING EXERCISE                                      CODE TABLE 8035            0            0   3 CODE TABLE 8035           0         1              ".
Definition b3129 : text := " 008036 TYPE OF CENTRE OR STATION PERFORMING MONITORING                  CODE TABLE 8036            0            0   3 CODE TABLE 8036           0         1              ".
Definition b3130 : text := " 008039 TIME SIGNIFICANCE ( AVIATION FORECAST)                           CODE TABLE 8039            0            0   6 CODE TABLE 8039           0         2              ".
Definition b3131 : text := " 008040 FLIGHT LEVEL SIGNIFICANCE                                        CODE TABLE 8040            0            0   6 CODE TABLE 8040           0         2              ".
Definition b3132 : text := " 008041 DATA SIGNIFICANCE                                                CODE TABLE 8041            0            0   5 CODE TABLE 8041           0         2              ".
Definition b3133 : text := " 008042 EXTENDED VERTICAL SOUNDING SIGNIFICANCE                          FLAG TABLE 8042            0            0  18 FLAG TABLE 8042           0         6              ".
Definition b3134 : text := " 008043 ATMOSPHERIC CHEMICAL OR PHISICAL CONSTITUENT TYPE                CODE TABLE 8043            0            0   8 CODE TABLE 8043           0         3              ".
Definition b3135 : text := " 008044 CAS REGISTRY NUMBER                                              CCITTIA5                   0            0  88 CHARACTERS                0        11              ".
Definition b3136 : text := " 008045 PARTICULATE MATTER CHARACTERIZATION                              CODE TABLE 8045            0            0   8 CODE TABLE 8045           0         3              ".
Definition b3137 : text := " 008049 NUMBER OF OBSERVATIONS                                           NUMERIC                    0            0   8 NUMERIC                   0         3              ".
Definition b3138 : text := " 008050 QUALIFIER FOR NUMBER OF MISSING VALUES IN CALCULATION OF STATIST CODE TABLE 8050            0            0   4 CODE TABLE 8050           0         2              ".
Definition b3139 : text := " 008051 QUALIFIER FOR NUMBER OF MISSING VALUES IN CALCULATION OF STATIST CODE TABLE 8051            0            0   3 CODE TABLE 8051           0         1              ".
Definition b3140 : text := " 008052 CONDITION FOR WHICH NUMBER OF DAYS OF OCCURRENCE FOLLOWS         CODE TABLE 8052            0            0   5 CODE TABLE 8052           0         2              ".
Definition b3141 : text := " 008053 DAY OF OCCURRENCE QUALIFIER                                      CODE TABLE 8053            0            0   2 CODE TABLE 8053           0         1              ".
Definition b3142 : text := " 008054 QUALIFIER FOR WIND SPEED OR WIND GUST                            CODE TABLE 8054            0            0   3 CODE TABLE 8054           0         1              ".
Definition b3143 : text := " 008060 SAMPLE SCANNING MODE SIGNIFICANCE                                CODE TABLE 8060            0            0   4 CODE TABLE 8060           0         2              ".
Definition b3144 : text := " 008065 SUN-GLINT INDICATOR                                              CODE TABLE 8065            0            0   2 CODE TABLE 8065           0         1              ".
Definition b3145 : text := " 008066 SEMI-TRANSPARENCY INDICATOR                                      CODE TABLE 8066            0            0   2 CODE TABLE 8066           0         1              ".
Definition b3146 : text := " 008070 TOVS/ATOVS PRODUCT QUALIFIER                                     CODE TABLE 8070            0            0   4 CODE TABLE 8070           0         2              ".
Definition b3147 : text := " 008072 PIXEL(S) TYPE                                                    CODE TABLE 8072            0            0   3 CODE TABLE 8072           0         1              ".
Definition b3148 : text := " 008074 ALTIMETER ECHO TYPE                                              CODE TABLE 8074            0            0   2 CODE TABLE 8074           0         1              ".
Definition b3149 : text := " 008075 ASCENDING/DESCENDING ORBIT QUALIFIER                             CODE TABLE 8075            0            0   2 CODE TABLE 8075           0         1              ".
Definition b3150 : text := " 008076 TYPE OF BAND                                                     CODE TABLE 8076            0            0   6 CODE TABLE 8076           0         2              ".
Definition b3151 : text := " 008077 RADIOMETER SENSED SURFACE TYPE                                   CODE TABLE 8077            0            0   7 CODE TABLE 8077           0         3              ".
Definition b3152 : text := " 008079 PRODUCT STATUS                                                   CODE TABLE 8079            0            0   4 CODE TABLE 8079           0         2              ".
Definition b3153 : text := " 008080 QUALIFIER FOR GTSPP QUALITY FLAG                                 CODE TABLE 8080            0            0   6 CODE TABLE 8080           0         2              ".
Definition b3154 : text := " 008081 TYPE OF EQUIPMENT                                                CODE TABLE 8081            0            0   6 CODE TABLE 8081           0         2              ".
Definition b3155 : text := " 008082 (CBS) ARTIFICIAL CORRECTION OF SENSOR HEIGHT TO ANOTHER VALUE    CODE TABLE 8082            0            0   3 CODE TABLE 8082           0         1              ".
Definition b3156 : text := " 008083 NOMINAL VALUE INDICATOR                                          FLAG TABLE 8083            0            0  15 FLAG TABLE 8083           0         5              ".
Definition b3157 : text := " 008085 BEAM IDENTIFIER                                                  CODE TABLE 8085            0            0   3 CODE TABLE 8085           0         1              ".
Definition b3158 : text := " 008090 DECIMAL SCALE OF FOLLOWING SIGNIFICANDS                          NUMERIC                    0         -127   8 NUMERIC                   0         3              ".
Definition b3159 : text := " 008193 TIME QUALIFIER                                                   CODE TABLE 8193            0            0   6 CODE TABLE 8193           0         2              ".
Definition b3160 : text := " 008194 TOVS/ATOVS PRODUCT QUALIFIER                                     CODE TABLE 8194            0            0   4 CODE TABLE 8194           0         2              ".
Definition b3161 : text := " 008195 DATA TYPE                                                        CODE TABLE 8195            0            0   7 CODE TABLE 8195           0         3              ".
Definition b3162 : text := " 008200 NUMBER OF OBSERVATIONS                                           NUMERIC                    0            0   8 NUMERIC                   0         3              ".
Definition b3163 : text := " 008222 GENERATOR SIGNIFICANCE                                           CODE TABLE 8222            0            0   4 CODE TABLE 8222           0         2              ".
Definition b3164 : text := " 008223 LAND/ICE SURFACE FLAG                                            FLAG TABLE 8223            0            0   7 FLAG TABLE 8223           0         3              ".
Definition b3165 : text := " 008224 LAND/SEA FRACTION                                                NUMERIC                    3            0  10 NUMERIC                   3         4              ".
Definition b3166 : text := " 008225 GHRSST SURFACE TYPE                                              FLAG TABLE 8225            0            0   5 FLAG TABLE 8225           0         2              ".
Definition b3167 : text := " 010001 HEIGHT OF LAND SURFACE                                           M                          0         -400  15 M                         0         5              ".
Definition b3168 : text := " 010002 HEIGHT                                                           M                         -1          -40  16 M                        -1         5              ".
Definition b3169 : text := " 010003 GEOPOTENTIAL                                                     M**2/S**2                 -1         -400  17 M**2/S**2                -1         6              ".
Definition b3170 : text := " 010004 PRESSURE                                                         PA                        -1            0  14 PA                       -1         5              ".
Definition b3171 : text := " 010007 HEIGHT                                                           M                          0        -1000  17 M                         0         6              ".
Definition b3172 : text := " 010008 GEOPOTENTIAL                                                     M**2/S**2                  0       -10000  20 M**2/S**2                 0         7              ".
Definition b3173 : text := " 010009 GEOPOTENTIAL HEIGHT                                              GPM                        0        -1000  17 GPM                       0         5              ".
Definition b3174 : text := " 010010 MINIMUM PRESSURE REDUCED TO MEAN SEA LEVEL                       PA                        -1            0  14 PA                       -1         5              ".
Definition b3175 : text := " 010011 MAXIMUM PRESSURE REDUCED TO MEAN SEA LEVEL                       PA                        -1            0  14 PA                       -1         5              ".
Definition b3176 : text := " 010031 IN DIRECTION OF THE NORTH POLE, DISTANCE FROM THE EARTH'S CENTRE M                          2  -1073741824  31 M                         2        10              ".
Definition b3177 : text := " 010032 SATELLITE DISTANCE TO EARTH'S CENTRE                             M                          1            0  27 M                         2         9              ".
Definition b3178 : text := " 010033 ALTITUDE (PLATFORM TO ELLIPSOID)                                 M                          1            0  27 M                         2         9              ".
Definition b3179 : text := " 010034 EARTH RADIUS                                                     M                          1            0  27 M                         2         9              ".
Definition b3180 : text := " 010035 EARTH'S LOCAL RADIUS OF CURVATURE                                M                          1     62000000  22 M                         1         8              ".
Definition b3181 : text := " 010036 GEOID UNDULATION (SEE NOTE 4)                                    M                          2       -15000  15 M                         2         6              ".
Definition b3182 : text := " 010040 NUMBER OF RETRIEVED LAYERS                                       NUMERIC                    0            0  10 NUMERIC                   0         4              ".
Definition b3183 : text := " 010050 STANDARD DEVIATION ALTITUDE                                      M                          2            0  16 M                         2         5              ".
Definition b3184 : text := " 010051 PRESSURE REDUCED TO MEAN SEA LEVEL                               PA                        -1            0  14 PA                       -1         5              ".
Definition b3185 : text := " 010052 ALTIMETER SETTING (QNH)                                          PA                        -1            0  14 PA                       -1         5              ".
Definition b3186 : text := " 010060 PRESSURE CHANGE                                                  PA                        -1        -1024  11 PA                       -1         4              ".
Definition b3187 : text := " 010061 3-HOUR PRESSURE CHANGE                                           PA                        -1         -500  10 PA                       -1         4              ".
Definition b3188 : text := " 010062 24-HOUR PRESSURE CHANGE                                          PA                        -1        -1000  11 PA                       -1         4              ".
Definition b3189 : text := " 010063 CHARACTERISTIC OF PRESSURE TENDENCY                              CODE TABLE 10063           0            0   4 CODE TABLE 10063          0         2              ".
Definition b3190 : text := " 010064 SIGMET CRUISING LEVEL                                            CODE TABLE 10064           0            0   3 CODE TABLE 10064          0         1              ".
Definition b3191 : text := " 010070 INDICATED AIRCRAFT ALTITUDE                                      M                          0         -400  16 M                         0         5              ".
Definition b3192 : text := " 010080 VIEWING ZENITH ANGLE                                             DEGREE                     2        -9000  15 DEGREE                    2         5              ".
Definition b3193 : text := " 010081 ALTITUDE OF COG ABOVE REFERENCE ELLIPSOID                        M                          3            0  31 M                         3        10              ".
Definition b3194 : text := " 010082 INSTANTANEOUS ALTITUDE RATE                                      MS-1                       3       -65536  17 MS-1                      3         6              ".
Definition b3195 : text := " 010083 SQUARED OFF NADIR ANGLE OF THE SATELLITE FROM PLATFORM DATA      DEGREE**2                  2            0  16 DEGREE**2                 2         5              ".
Definition b3196 : text := " 010084 SQUARED OFF NADIR ANGLE OF THE SATELLITE FROM WAVEFORM DATA      DEGREE**2                  2            0  16 DEGREE**2                 2         5              ".
Definition b3197 : text := " 010085 MEAN SEA SURFACE HEIGHT                                          M                          3      -131072  18 M                         3         6              ".
Definition b3198 : text := " 010086 GEOID'S HEIGHT                                                   M                          3      -131072  18 M                         3         6              ".
Definition b3199 : text := " 010087 OCEAN DEPTH/LAND ELEVATION                                       M                          1      -131072  18 M                         3         6              ".
Definition b3200 : text := " 010088 TOTAL GEOCENTRIC OCEAN TIDE HEIGHT SOLUTION 1                    M                          3       -32768  16 M                         3         5              ".
Definition b3201 : text := " 010089 TOTAL GEOCENTRIC OCEAN TIDE HEIGHT SOLUTION 2                    M                          3       -32768  16 M                         3         5              ".
Definition b3202 : text := " 010090 LONG PERIOD  TIDE HEIGHT                                         M                          3       -32768  16 M                         3         5              ".
Definition b3203 : text := " 010091 TIDAL LOADING HEIGHT                                             M                          3       -32768  16 M                         3         5              ".
Definition b3204 : text := " 010092 SOLID EARTH TIDE HEIGHT                                          M                          3       -32768  16 M                         3         5              ".
Definition b3205 : text := " 010093 GEOCENTRIC POLE TIDE HEIGHT                                      M                          3       -32768  16 M                         3         5              ".
Definition b3206 : text := " 010095 HEIGHT OF ATMOSPHERE USED                                        M                          0            0  16 M                         0         5              ".
Definition b3207 : text := " 010096 MEAN DYNAMIC TOPOGRAPHY                                          M                          3      -131072  18                                                    ".
Definition b3208 : text := " 010097 MEAN SEA SURFACE HEIGHT FROM ALTIMETER ONLY                      M                          3      -131072  18                                                    ".
Definition b3209 : text := " 010098 LOADING TIDE HEIGHT GEOCENTRIC OCEAN TIDE SOLUTION 1             M                          4        -2000  12                                                    ".
Definition b3210 : text := " 010099 LOADING TIDE HEIGHT GEOCENTRIC OCEAN TIDE SOLUTION 2             M                          4        -2000  12                                                    ".
Definition b3211 : text := " 010100 NON-EQUILIBRIUM LONG PERIOD TIDE HEIGHT                          M                          4        -2000  12                                                    ".
Definition b3212 : text := " 010101 SQUARED OFF NADIR ANGLE OF THE SATELLITE FROM WAVEFORM  DATA     DEGREE**2                  2       -32768  16 DEGREE**2                 2         5              ".
Definition b3213 : text := " 010195 HEIGHT(HIGH ACCURACY)                                            M                          1        -4096  20                                                    ".
Definition b3214 : text := " 010196 SOLAR ZENITH ANGLE                                               DEGREE                     2        -9000  15                                                    ".
Definition b3215 : text := " 010197 ANEMOMETER HEIGHT                                                M                          0            0   9                                                    ".
Definition b3216 : text := " 011001 WIND DIRECTION                                                   DEGREE TRUE                0            0   9 DEGREE TRUE               0         3              ".
Definition b3217 : text := " 011002 WIND SPEED                                                       M/S                        1            0  12 M/S                       1         4              ".
Definition b3218 : text := " 011003 U-COMPONENT                                                      M/S                        1        -4096  13 M/S                       1         4              ".
Definition b3219 : text := " 011004 V-COMPONENT                                                      M/S                        1        -4096  13 M/S                       1         4              ".
Definition b3220 : text := " 011005 W-COMPONENT                                                      PA/S                       1         -512  10 PA/S                      1         4              ".
Definition b3221 : text := " 011006 W-COMPONENT                                                      M/S                        2        -4096  13 M/S                       2         4              ".
Definition b3222 : text := " 011010 WIND DIRECTION ASSOCIATED WITH WIND SPEED WHICH FOLLOWS          DEGREE TRUE                0            0   9 DEGREE TRUE               0         3              ".
Definition b3223 : text := " 011011 WIND DIRECTION AT 10 M                                           DEGREE TRUE                0            0   9 DEGREE TRUE               0         3              ".
Definition b3224 : text := " 011012 WIND SPEED AT 10 M                                               M/S                        1            0  12 M/S                       1         4              ".
Definition b3225 : text := " 011013 WIND DIRECTION AT 5 M                                            DEGREE TRUE                0            0   9 DEGREE TRUE               0         3              ".
Definition b3226 : text := " 011014 WIND SPEED AT 5 M                                                M/S                        1            0  12 M/S                       1         4              ".
Definition b3227 : text := " 011016 EXTREME COUNTERCLOCKWISE WIND DIRECTION OF A VARIABLE WIND       DEGREE TRUE                0            0   9 DEGREE TRUE               0         3              ".
Definition b3228 : text := " 011017 EXTREME CLOCKWISE WIND DIRECTION OF A VARIABLE WIND              DEGREE TRUE                0            0   9 DEGREE TRUE               0         3              ".
Definition b3229 : text := " 011019 STEADINESS OF WIND (6)                                           %                          0            0   7 %                         0         3              ".
Definition b3230 : text := " 011021 RELATIVE VORTICITY                                               1/S                        9       -65536  17 1/S                       9         6              ".
Definition b3231 : text := " 011022 DIVERGENCE                                                       1/S                        9       -65536  17 1/S                       9         6              ".
Definition b3232 : text := " 011023 VELOCITY POTENTIAL                                               M**2/S                    -2       -65536  17 M**2/S                   -2         6              ".
Definition b3233 : text := " 011030 EXTENDED DEGREE OF TURBULENCE                                    CODE TABLE 11030           0            0   6 CODE TABLE                0         2              ".
Definition b3234 : text := " 011031 DEGREE OF TURBULENCE                                             CODE TABLE 11031           0            0   4 CODE TABLE 11031          0         2              ".
Definition b3235 : text := " 011032 HEIGHT OF BASE OF TURBULENCE                                     M                         -1          -40  16 M                        -1         5              ".
Definition b3236 : text := " 011033 HEIGHT OF TOP OF TURBULENCE                                      M                         -1          -40  16 M                        -1         5              ".
Definition b3237 : text := " 011034 VERTICAL GUST VELOCITY                                           M/S                        1        -1024  11 M/S                       1         4              ".
Definition b3238 : text := " 011035 VERTICAL GUST ACCELERATION                                       M/S**2                     2        -8192  14 M/S**2                    2         5              ".
Definition b3239 : text := " 011036 MAXIMUM DERIVED EQUIVALENT VERTICAL GUST SPEED                   M/S                        1            0  10 M/S                       1         4              ".
Definition b3240 : text := " 011037 TURBULENCE INDEX                                                 CODE TABLE 11037           0            0   6 CODE TABLE 11037          0         2              ".
Definition b3241 : text := " 011038 TIME OF OCCURRENCE OF PEAK EDDY DISSIPATION RATE                 CODE TABLE 11038           0            0   5 CODE TABLE 11038          0         2              ".
Definition b3242 : text := " 011039 EXTENDED TIME OF OCCURRENCE OF PEAK  EDDY DISSIPATION RATE       CODE TABLE 11039           0            0   6 CODE TABLE 11039          0         2              ".
Definition b3243 : text := " 011040 MAXIMUM WIND SPEED (MEAN WIND)                                   M/S                        1            0  12 M/S                       1         4              ".
Definition b3244 : text := " 011041 MAXIMUM WIND GUST SPEED                                          M/S                        1            0  12 M/S                       1         4              ".
Definition b3245 : text := " 011042 MAXIMUM WIND SPEED (10-MIN MEAN WIND)                            M/S                        1            0  12 M/S                       1         4              ".
Definition b3246 : text := " 011043 MAXIMUM WIND GUST DIRECTION                                      DEGREE TRUE                0            0   9 DEGREE TRUE               0         3              ".
Definition b3247 : text := " 011044 MEAN WIND DIRECTION FOR SURFACE - 1500 M (5000 FEET)             DEGREE TRUE                0            0   9 DEGREE TRUE               0         3              ".
Definition b3248 : text := " 011045 MEAN WIND SPEED FOR SURFACE - 1500 M (5000 FEET)                 M/S                        1            0  12 M/S                       1         4              ".
Definition b3249 : text := " 011046 MAXIMUM INSTANTANEOUS WIND SPEED                                 M/S                        1            0  12 M/S                       1         4              ".
Definition b3250 : text := " 011047 MAXIMUM INSTANTANEOUS WIND SPEED OVER 10 MINUTES                 M/S                        1            0  12 M/S                       1         4              ".
Definition b3251 : text := " 011049 STANDARD DEVIATION OF WIND DIRECTION                             DEGREE TRUE                0            0   9 DEGREE TRUE               0         3              ".
Definition b3252 : text := " 011050 STANDARD DEVIATION OF HORIZONTAL WIND SPEED                      M/S                        1            0  12 M/S                       1         4              ".
Definition b3253 : text := " 011051 STANDARD DEVIATION OF VERTICAL WIND SPEED                        M/S                        1            0   8 M/S                       1         3              ".
Definition b3254 : text := " 011052 FORMAL UNCERTAINTY IN WIND SPEED                                 M/S                        2            0  13 M/S                       2         5              ".
Definition b3255 : text := " 011053 FORMAL UNCERTAINTY IN WIND DIRECTION                             DEGREE TRUE                2            0  15 DEGREE TRUE               2         5              ".
Definition b3256 : text := " 011054 MEAN WIND DIRECTION FOR 1500 M - 3000 M                          DEGREE TRUE                0            0   9 DEGREE TRUE               0         3              ".
Definition b3257 : text := " 011055 MEAN WIND SPEED FOR 1500 M - 3000 M                              M/S                        1            0  12 M/S                       1         4              ".
Definition b3258 : text := " 011061 ABSOLUTE WIND SHEAR IN 1 KM LAYER BELOW                          M/S                        1            0  12 M/S                       1         4              ".
Definition b3259 : text := " 011062 ABSOLUTE WIND SHEAR IN 1 KM LAYER ABOVE                          M/S                        1            0  12 M/S                       1         4              ".
Definition b3260 : text := " 011070 DESIGNATOR OF THE RUNWAY AFFECTED BY WIND SHEAR (INCLUDING ALL)  CCITTIA5                   0            0  32 CHARACTER                 0         4              ".
Definition b3261 : text := " 011071 TURBULENT VERTICAL MOMENTUM FLUX                                 M**2/S**2                  3         -128  14 M**2/S**2                 3         5              ".
Definition b3262 : text := " 011072 TURBULENT VERTICAL BUOYANCY FLUX                                 KM/S                       3         -128  11 KM/S                      3         4              ".
Definition b3263 : text := " 011073 TURBULENT KINETIC ENERGY                                         M**2/S**2                  2        -1024  13 M**2/S**2                 2         4              ".
Definition b3264 : text := " 011074 DISSIPATION ENERGY                                               M**2/S**2                  2        -1024  10 M**2/S**2                 2         4              ".
Definition b3265 : text := " 011075 MEAN TURBULENCE INTENSITY (EDDY DISSIPATION RATE)                M**(2/3)/S                 2            0   8 M**(2/3)/S                2         3              ".
Definition b3266 : text := " 011076 PEAK TURBULENCE INTENSITY (EDDY DISSIPATION RATE)                M**(2/3)/S                 2            0   8 M**(2/3)/S                2         3              ".
Definition b3267 : text := " 011077 REPORTING INTERVAL OR AVERAGING TIME FOR EDDY DISSIPATION RATE   S                          0            0  12 S                         0         4              ".
Definition b3268 : text := " 011081 MODEL WIND DIRECTION AT 10M                                      DEGREE TRUE                2            0  16 DEGREE TRUE               2         5              ".
Definition b3269 : text := " 011082 MODEL WIND SPEED AT 10M                                          M/S                        2            0  14 M/S                       2         4              ".
Definition b3270 : text := " 011083 WIND SPEED                                                       KM/HOUR                    0            0   9 KM/HOUR                   0         3              ".
Definition b3271 : text := " 011084 WIND SPEED                                                       KNOT                       0            0   8 KNOT                      0         3              ".
Definition b3272 : text := " 011085 MAXIMUM WIND GUST SPEED                                          KM/HOUR                    0            0   9 KM/HOUR                   0         3              ".
Definition b3273 : text := " 011086 MAXIMUM WIND GUST SPEED                                          KNOT                       0            0   8 KNOT                      0         3              ".
Definition b3274 : text := " 011095 U COMPONENT OF THE MODEL WIND VECTOR                             M/S                        1        -4096  13 M/S                       1         4              ".
Definition b3275 : text := " 011096 V COMPONENT OF THE MODEL WIND VECTOR                             M/S                        1        -4096  13 M/S                       1         4              ".
Definition b3276 : text := " 011097 WIND SPEED FROM ALTIMETER                                        M/S                        2            0  12                                                    ".
Definition b3277 : text := " 011098 WIND SPEED FROM RADIOMETER                                       M/S                        2            0  12                                                    ".
Definition b3278 : text := " 011192 U - COMPONENT AT 10 M                                            M/S                        1        -4096  13 M/S                       1         4^M            ".
Definition b3279 : text := " 011193 V - COMPONENT AT 10 M                                            M/S                        1        -4096  13 M/S                       1         4^M            ".
Definition b3280 : text := " 011194 W - COMPONENT AT 10 M                                            M/S                        1        -4096  13 M/S                       1         4^M            ".
Definition b3281 : text := " 011195 STEADINESS OF WIND                                               %                          0            0   7 %                         0         3              ".
Definition b3282 : text := " 011196 FRICTION VELOCITY                                                M/S                        5            0  19                                                    ".
Definition b3283 : text := " 011201 HORIZONTAL LINE OF SIGHT COMPONENT                               M/S                        1        -4096  13                                                    ".
Definition b3284 : text := " 011210 1D VAR WIND SPEED RETREIVED ERRO(S)                              M/S                        2            0  12                                                    ".
Definition b3285 : text := " 011211 WIND SPEED INDEPENDENT ESTIMATE OF ERROR(S)                      M/S                        2            0  12                                                    ".
Definition b3286 : text := " 011220 FORMAL UNCERTAINTY IN WIND SPEED                                 M/S                        2            0  12                                                    ".
Definition b3287 : text := " 011221 FORMAL UNCERTAINTY IN WIND DIRECTION                             DEGREE TRUE                2            0  15                                                    ".
Definition b3288 : text := " 011230 MAXIMUM MEAN WIND SPEED                                          M/S                        1        -4096  13 M/S                       1         4^M            ".
Definition b3289 : text := " 011231 MEAN WIND SPEED                                                  M/S                        1        -4096  13 M/S                       1         4^M            ".
Definition b3290 : text := " 011232 MINIMUM MEAN WIND SPEED                                          M/S                        1        -4096  13 M/S                       1         4^M            ".
Definition b3291 : text := " 011233 HIGHEST GUST DURING THE 10 MINUTE PERIOD PRECEDING OBSERVATION   M/S                        1        -4096  13 M/S                       1         4^M            ".
Definition b3292 : text := " 012001 TEMPERATURE/DRY-BULB TEMPERATURE                                 K                          1            0  12 C                         1         3              ".
Definition b3293 : text := " 012002 WET-BULB TEMPERATURE                                             K                          1            0  12 C                         1         3              ".
Definition b3294 : text := " 012003 DEW-POINT TEMPERATURE                                            K                          1            0  12 C                         1         3              ".
Definition b3295 : text := " 012004 DRY-BULB TEMPERATURE AT 2 M                                      K                          1            0  12 C                         1         3              ".
Definition b3296 : text := " 012005 WET-BULB TEMPERATURE AT 2 M                                      K                          1            0  12 C                         1         3              ".
Definition b3297 : text := " 012006 DEW-POINT TEMPERATURE AT 2 M                                     K                          1            0  12 C                         1         3              ".
Definition b3298 : text := " 012007 VIRTUAL TEMPERATURE                                              K                          1            0  12 C                         1         3              ".
Definition b3299 : text := " 012011 MAXIMUM TEMPERATURE, AT HEIGHT AND OVER PERIOD SPECIFIED         K                          1            0  12 C                         1         3              ".
Definition b3300 : text := " 012012 MINIMUM TEMPERATURE, AT HEIGHT AND OVER PERIOD SPECIFIED         K                          1            0  12 C                         1         3              ".
Definition b3301 : text := " 012013 GROUND MINIMUM TEMPERATURE, PAST 12 HOURS                        K                          1            0  12 C                         1         3              ".
Definition b3302 : text := " 012014 MAXIMUM TEMPERATURE AT 2 M, PAST 12 HOURS                        K                          1            0  12 C                         1         3              ".
Definition b3303 : text := " 012015 MINIMUM TEMPERATURE AT 2 M, PAST 12 HOURS                        K                          1            0  12 C                         1         3              ".
Definition b3304 : text := " 012016 MAXIMUM TEMPERATURE AT 2 M, PAST 24 HOURS                        K                          1            0  12 C                         1         3              ".
Definition b3305 : text := " 012017 MINIMUM TEMPERATURE AT 2 M, PAST 24 HOURS                        K                          1            0  12 C                         1         3              ".
Definition b3306 : text := " 012021 MAXIMUM TEMPERATURE AT 2M                                        K                          2            0  16 C                         2         4              ".
Definition b3307 : text := " 012022 MINIMUM TEMPERATURE AT 2M                                        K                          2            0  16 C                         2         4              ".
Definition b3308 : text := " 012023 TEMPERATURE                                                      C                          0          -99   8 C                         0         2              ".
Definition b3309 : text := " 012024 DEW POINT TEMPERATURE                                            C                          0          -99   8 C                         0         2              ".
Definition b3310 : text := " 012030 SOIL TEMPERATURE                                                 K                          1            0  12 C                         1         3              ".
Definition b3311 : text := " 012049 TEMPERATURE CHANGE OVER SPECIFIED PERIOD                         K                          0          -30   6 C                         0         2              ".
Definition b3312 : text := " 012051 STANDARD DEVIATION TEMPERATURE                                   K                          1            0  10 C                         1         3              ".
Definition b3313 : text := " 012052 HIGHEST DAILY MEAN TEMPERATURE                                   K                          1            0  12 C                         1         3              ".
Definition b3314 : text := " 012053 LOWEST DAILY MEAN TEMPERATURE                                    K                          1            0  12 C                         1         3              ".
Definition b3315 : text := " 012061 SKIN TEMPERATURE                                                 K                          1            0  12 C                         1         3              ".
Definition b3316 : text := " 012062 EQUIVALENT BLACK BODY TEMPERATURE                                K                          1            0  12 C                         1         3              ".
Definition b3317 : text := " 012063 BRIGHTNESS TEMPERATURE                                           K                          1            0  12 C                         1         3              ".
Definition b3318 : text := " 012064 INSTRUMENT TEMPERATURE                                           K                          1            0  12 K                         1         4              ".
Definition b3319 : text := " 012065 STANDARD DEVIATION BRIGHTNESS TEMPERATURE                        K                          1            0  12 K                         1         4              ".
Definition b3320 : text := " 012070 WARM LOAD TEMPERATURE                                            K                          2            0  16 K                         2         5              ".
Definition b3321 : text := " 012071 COLDEST CLUSTER TEMPERATURE                                      K                          1            0  12 K                         1         4              ".
Definition b3322 : text := " 012072 RADIANCE                                                         WM**(-2)SR**(-1)           6            0  31 WM**(-2)SR**(-1)          6         9              ".
Definition b3323 : text := " 012073 TEMPERATURE                                                      K                          2            0  16 K                         1         4              ".
Definition b3324 : text := " 012075 SPECTRAL RADIANCE                                                WM**(-3)SR**(-1)          -3            0  16 WM**(-3)SR**(-1)         -3         5              ".
Definition b3325 : text := " 012076 RADIANCE                                                         WM**(-2)SR**(-1)           3            0  16 WM**(-2)SR**(-1)          3         5              ".
Definition b3326 : text := " 012080 BRIGHTNESS TEMPERATURE REAL PART                                 K                          2       -10000  16 K                         2         5              ".
Definition b3327 : text := " 012081 BRIGHTNESS TEMPERATURE IMAGINARY PART                            K                          2       -10000  16 K                         2         5              ".
Definition b3328 : text := " 012082 PIXEL RADIOMETRIC ACCURACY                                       K                          2            0  12 K                         2         4              ".
Definition b3329 : text := " 012101 TEMPERATURE/DRY-BULB TEMPERATURE                                 K                          2            0  16 C                         2         4              ".
Definition b3330 : text := " 012102 WET-BULB TEMPERATURE                                             K                          2            0  16 C                         2         4              ".
Definition b3331 : text := " 012103 DEW-POINT TEMPERATURE                                            K                          2            0  16 C                         2         4              ".
Definition b3332 : text := " 012104 DRY-BULB TEMPERATURE AT 2M                                       K                          2            0  16 C                         2         4              ".
Definition b3333 : text := " 012105 WEB-BULB TEMPERATURE AT 2M                                       K                          2            0  16 C                         2         4              ".
Definition b3334 : text := " 012106 DEW-POINT TEMPERATURE AT 2M                                      K                          2            0  16 C                         2         4              ".
Definition b3335 : text := " 012107 VIRTUAL TEMPERATURE                                              K                          2            0  16 C                         2         4              ".
Definition b3336 : text := " 012111 MAXIMUM TEMPERATURE, AT HEIGHT AND OVER PERIOD SPECIFIED         K                          2            0  16 C                         2         4              ".
Definition b3337 : text := " 012112 MINIMUM TEMPERATURE, AT HEIGHT AND OVER PERIOD SPECIFIED         K                          2            0  16 C                         2         4              ".
Definition b3338 : text := " 012113 GROUND MINIMUM TEMPERATURE, PAST 12 HOURS                        K                          2            0  16 C                         2         4              ".
Definition b3339 : text := " 012114 MAXIMUM TEMPERATURE AT 2M, PAST 12 HOURS                         K                          2            0  16 C                         2         4              ".
Definition b3340 : text := " 012115 MINIMUM TEMPERATURE AT 2M, PAST 12 HOURS                         K                          2            0  16 C                         2         4              ".
Definition b3341 : text := " 012116 MAXIMUM TEMPERATURE AT 2M, PAST 24 HOURS                         K                          2            0  16 C                         2         4              ".
Definition b3342 : text := " 012117 MINIMUM TEMPERATURE AT 2M, PAST 24 HOURS                         K                          2            0  16 C                         2         4              ".
Definition b3343 : text := " 012118 MAXIMUM TEMPERATURE AT HEIGHT SPECIFIED, PAST 24 HOURS           K                          2            0  16 C                         2         4              ".
Definition b3344 : text := " 012119 MINIMUM  TEMPERATURE AT HEIGHT SPECIFIED, PAST 24 HOURS          K                          2            0  16 C                         2         4              ".
Definition b3345 : text := " 012121 GROUND MINIMUM TEMPERATURE                                       K                          2            0  16 C                         2         4              ".
Definition b3346 : text := " 012122 GROUND MINIMUM TEMPERATURE OF THE PRECEDING NIGHT                K                          2            0  16 C                         2         4              ".
Definition b3347 : text := " 012130 SOIL TEMPERATURE                                                 K                          2            0  16 C                         2         4              ".
Definition b3348 : text := " 012151 STANDARD DEVIATION OF DAILY MEAN TEMPERATURE                     K                          2            0  12 C                         2         4              ".
Definition b3349 : text := " 012152 HIGHEST DAILY MEAN TEMPERATURE                                   K                          2            0  16 C                         2         4              ".
Definition b3350 : text := " 012153 LOWEST DAILY MEAN TEMPERATURE                                    K                          2            0  16 C                         2         4              ".
Definition b3351 : text := " 012161 SKIN TEMPERATURE                                                 K                          2            0  16 C                         2         4              ".
Definition b3352 : text := " 012162 EQUIVALENT BLACK BODY TEMPERATURE                                K                          2            0  16 C                         2         4              ".
Definition b3353 : text := " 012163 BRIGHTNESS TEMPERATURE                                           K                          2            0  16 C                         2         4              ".
Definition b3354 : text := " 012164 INSTRUMENT TEMPERATURE                                           K                          2            0  16 K                         2         5              ".
Definition b3355 : text := " 012165 DIRECT SUN BRIGHTNESS TEMPERATURE                                K                          0            0  23 K                         0         7              ".
Definition b3356 : text := " 012166 SNAPSHOT ACCURACY                                                K                          1        -4000  13 K                         1         4              ".
Definition b3357 : text := " 012167 RADIOMETRIC ACCURACY (PURE POLARISATION)                         K                          1            0   9 K                         1         3              ".
Definition b3358 : text := " 012168 RADIOMETRIC ACCURACY ( CROSS POLARISATION )                      K                          1            0   9 K                         1         3              ".
Definition b3359 : text := " 012171 COLDEST CLUSTER TEMPERATURE                                      K                          2            0  16 K                         2         5              ".
Definition b3360 : text := " 012180 AVERAGED 12 MICRON BT FOR ALL CLEAR PIXELS AT NADIR              K                          2            0  16 K                         2         5              ".
Definition b3361 : text := " 012181 AVERAGED 11 MICRON BT FOR ALL CLEAR PIXELS AT NADIR              K                          2            0  16 K                         2         5              ".
Definition b3362 : text := " 012182 AVERAGED 3.7 MICRON BT FOR ALL CLEAR PIXELS AT NADIR             K                          2            0  16 K                         2         5              ".
Definition b3363 : text := " 012183 AVERAGED 12 MICRON BT FOR ALL CLEAR PIXELS, FORWARD VIEW         K                          2            0  16 K                         2         5              ".
Definition b3364 : text := " 012184 AVERAGED 11 MICRON BT FOR ALL CLEAR PIXELS, FORWARD VIEW         K                          2            0  16 K                         2         5              ".
Definition b3365 : text := " 012185 AVERAGED 3.7 MICRON BT FOR ALL CLEAR PIXELS, FORWARD VIEW        K                          2            0  16 K                         2         5              ".
Definition b3366 : text := " 012186 MEAN NADIR SEA SURFACE TEMPERATURE                               K                          2            0  16 K                         2         5              ".
Definition b3367 : text := " 012187 MEAN DUAL VIEW SEA SURFACE TEMPERATURE                           K                          2            0  16 K                         2         5              ".
Definition b3368 : text := " 012188 INTERPOLATED 23.8 GHZ BRIGHTNESS T FROM MWR                      K                          2            0  16 K                         2         5              ".
Definition b3369 : text := " 012189 INTERPOLATED 36.5 GHZ BRIGHTNESS T FROM MWR                      K                          2            0  16 K                         2         5              ".
Definition b3370 : text := " 012193 COLDEST CLUSTER TEMPERATURE                                      K                          1            0  12                                                    ".
Definition b3371 : text := " 012194 RADIANCE                                                         W/M**2*STER*M**(-1)        6            0  31                                                    ".
Definition b3372 : text := " 012195 SPECTRAL RADIANCE                                                W/M**2*STER*M**(-1)       10            0  31                                                    ".
Definition b3373 : text := " 012196 RADIANCE                                                         W/M**2*STER                3            0  16                                                    ".
Definition b3374 : text := " 012197 MAXIMUM TEMPERATURE AT 2M, PAST  3 HOURS                         K                          1            0  12                                                    ".
Definition b3375 : text := " 012198 MINIMUM TEMPERATURE AT 2M, PAST  3 HOURS                         K                          1            0  12                                                    ".
Definition b3376 : text := " 012199 MAXIMUM TEMPERATURE AT 2M, PAST  6 HOURS                         K                          1            0  12                                                    ".
Definition b3377 : text := " 012200 MINIMUM TEMPERATURE AT 2M, PAST  6 HOURS                         K                          1            0  12                                                    ".
Definition b3378 : text := " 012201 BRIGHTNES TEMPERATURE OR STOKES PARAMETER                        K                          3      -271300  20                                                    ".
Definition b3379 : text := " 013001 SPECIFIC HUMIDITY                                                KG/KG                      5            0  14 KG/KG                     5         5              ".
Definition b3380 : text := " 013002 MIXING RATIO                                                     KG/KG                      5            0  14 KG/KG                     5         5              ".
Definition b3381 : text := " 013003 RELATIVE HUMIDITY                                                %                          0            0   7 %                         0         3              ".
Definition b3382 : text := " 013004 VAPOUR PRESSURE                                                  PA                        -1            0  10 PA                       -1         4              ".
Definition b3383 : text := " 013005 VAPOUR DENSITY                                                   KG/M**3                    3            0   7 KG/M**3                   3         3              ".
Definition b3384 : text := " 013006 MIXING HEIGHTS                                                   M                         -1          -40  16 M                        -1         5              ".
Definition b3385 : text := " 013007 MINIMUM RELATIVE HUMIDITY                                        %                          0            0   7 %                         0         3              ".
Definition b3386 : text := " 013008 MAXIMUM RELATIVE HUMIDITY                                        %                          0            0   7 %                         0         3              ".
Definition b3387 : text := " 013009 RELATIVE HUMIDITY                                                %                          1        -1000  12 %                         1         4              ".
Definition b3388 : text := " 013011 TOTAL PRECIPITATION/TOTAL WATER EQUIVALENT                       KG/M**2                    1           -1  14 KG/M**2                   1         5              ".
Definition b3389 : text := " 013012 DEPTH OF FRESH SNOW                                              M                          2           -2  12 M                         2         4              ".
Definition b3390 : text := " 013013 TOTAL SNOW DEPTH                                                 M                          2           -2  16 M                         2         5              ".
Definition b3391 : text := " 013014 RAINFALL/WATER EQUIVALENT OF SNOW (AVERAGED RATE)                KG/(M**2)S                 4            0  12 KG/(M**2)S                4         4              ".
Definition b3392 : text := " 013015 SNOWFALL  (AVERAGED RATE)                                        M/S                        7            0  12 M/S                       7         4              ".
Definition b3393 : text := " 013016 PRECIPITABLE WATER                                               KG/M**2                    0            0   7 KG/M**2                   0         3              ".
Definition b3394 : text := " 013019 TOTAL PRECIPITATION PAST 1 HOUR                                  KG/M**2                    1           -1  14 KG/M**2                   1         4              ".
Definition b3395 : text := " 013020 TOTAL PRECIPITATION PAST 3 HOURS                                 KG/M**2                    1           -1  14 KG/M**2                   1         5              ".
Definition b3396 : text := " 013021 TOTAL PRECIPITATION PAST 6 HOURS                                 KG/M**2                    1           -1  14 KG/M**2                   1         5              ".
Definition b3397 : text := " 013022 TOTAL PRECIPITATION PAST 12 HOURS                                KG/M**2                    1           -1  14 KG/M**2                   1         5              ".
Definition b3398 : text := " 013023 TOTAL PRECIPITATION PAST 24 HOURS                                KG/M**2                    1           -1  14 KG/M**2                   1         5              ".
Definition b3399 : text := " 013031 EVAPOTRANSPIRATION                                               KG/M**2                    0            0   7 KG/M**2                   0         3              ".
Definition b3400 : text := " 013032 EVAPORATION/EVAPOTRANSPIRATION                                   KG/M**2                    1            0   8 KG/M**2                   1         3              ".
Definition b3401 : text := " 013033 EVAPORATION/EVAPOTRANSPIRATION                                   KG/M**2                    1            0  10 KG/M**2                   1         4              ".
Definition b3402 : text := " 013038 SUPERADIABATIC INDICATOR                                         CODE TABLE 13038           0            0   2 CODE TABLE 13038          0         1              ".
Definition b3403 : text := " 013039 TERRAIN TYPE (ICE/SNOW)                                          CODE TABLE 13039           0            0   3 CODE TABLE 13039          0         1              ".
Definition b3404 : text := " 013040 SURFACE FLAG                                                     CODE TABLE 13040           0            0   4 CODE TABLE 13040          0         2              ".
Definition b3405 : text := " 013041 PASQUILL-GIFFORD STABILITY CATEGORY                              CODE TABLE 13041           0            0   4 CODE TABLE 13041          0         2              ".
Definition b3406 : text := " 013042 PARCEL LIFTED INDEX (TO 500 HPA)                                 K                          0          -20   6 K                         0         2              ".
Definition b3407 : text := " 013043 BEST LIFTED INDEX (TO 500 HPA)                                   K                          0          -20   6 K                         0         2              ".
Definition b3408 : text := " 013044 K INDEX                                                          K                          0          -30   8 K                         0         3              ".
Definition b3409 : text := " 013045 KO INDEX                                                         K                          0          -30   8 K                         0         3              ".
Definition b3410 : text := " 013046 MAXIMUM BUOYANCY                                                 K                          0          -30   8 K                         0         3              ".
Definition b3411 : text := " 013047 MODIFIED SHOWALTER STABILITY INDEX                               K                          0          -60   6 C                         0         2              ".
Definition b3412 : text := " 013048 WATER FRACTION                                                   %                          1            0  10 %                         1         4              ".
Definition b3413 : text := " 013051 FREQUENCY GROUP, PRECIPITATION                                   CODE TABLE 13051           0            0   4 CODE TABLE 13051          0         2              ".
Definition b3414 : text := " 013052 HIGHEST DAILY AMOUNT OF PRECIPITATION                            KG/M**2                    1           -1  14 KG/M**2                   1         5              ".
Definition b3415 : text := " 013055 INTENSITY OF PRECIPITATION                                       KG/(M**2)S                 4            0   8 MM H-1                    1         3              ".
Definition b3416 : text := " 013056 CHARACTER AND INTENSITY OF PRECIPITATION                         CODE TABLE 13056           0            0   4 CODE TABLE 13056          0         2              ".
Definition b3417 : text := " 013057 TIME OF BEGINNING OR END OF PRECIPITATION                        CODE TABLE 13057           0            0   4 CODE TABLE 13057          0         2              ".
Definition b3418 : text := " 013058 SIZE OF PRECIPITATING ELEMENT                                    M                          4            0   7 MM                        1         3              ".
Definition b3419 : text := " 013059 NUMBER OF FLASHES (THUNDERSTORM)                                 NUMERIC                    0            0   7 NUMERIC                   0         3              ".
Definition b3420 : text := " 013060 TOTAL ACCUMULATED PRECIPITATION                                  KG/M**2                    1           -1  17 KG/M**2                   1         5              ".
Definition b3421 : text := " 013071 UPSTREAM WATER LEVEL                                             M                          2            0  14 M                         2         5              ".
Definition b3422 : text := " 013072 DOWNSTREAM WATER LEVEL                                           M                          2            0  14 M                         2         4              ".
Definition b3423 : text := " 013073 MAXIMUM WATER LEVEL                                              M                          2            0  14 M                         2         4              ".
Definition b3424 : text := " 013080 WATER PH                                                         pH                         1            0  10 pH                        1         3              ".
Definition b3425 : text := " 013081 WATER CONDUCTIVITY                                               S M-1                      3            0  14 S M-1                     3         4              ".
Definition b3426 : text := " 013082 WATER TEMPERATURE                                                K                          1            0  12 K                         1         4              ".
Definition b3427 : text := " 013083 DISSOLVED OXYGEN                                                 KG/M**3                    6            0  15 KG/M**3                   6         5              ".
Definition b3428 : text := " 013084 TURBIDITY                                                        LUMEN                      0            0  14 LUMEN                     0         4              ".
Definition b3429 : text := " 013085 OXYDATION REDUCTION POTENTIAL (ORP)                              V                          3            0  14 V                         3         4              ".
Definition b3430 : text := " 013090 RADIOMETER WATER VAPOUR CONTENT                                  KG/M**2                    1            0  10 KG/M**2                   1         4              ".
Definition b3431 : text := " 013091 RADIOMETER LIQUID CONTENT                                        KG/M**2                    2            0   8 KG/M**2                   2         3              ".
Definition b3432 : text := " 013093 CLOUD OPTICAL THICKNESS                                          NUMERIC                    0            0   8 NUMERIC                   0         3              ".
Definition b3433 : text := " 013095 TOTAL COLUMN WATER VAPOUR                                        KG/M**2                    4            0  19 KG/M**2                   4         6              ".
Definition b3434 : text := " 013096 MWR WATER VAPOUR CONTENT                                         KG/M**2                    2            0  14 KG/M**2                   2         4              ".
Definition b3435 : text := " 013097 MWR LIQUID WATER CONTENT                                         KG/M**2                    2            0  14 KG/M**2                   2         4              ".
Definition b3436 : text := " 013098 INTEGRATED WATER VAPOUR DENSITY                                  KG/M**2                    8            0  30 KG/M**2                   8        10              ".
Definition b3437 : text := " 013155 INTENSITY OF PRECIPITATION (HIGH ACCURACY)                       KG/M**2S                   5           -1  16 MM/HOUR                   1         5".
Definition b3438 : text := " 013192 RELATIVE HUMIDITY AT 2 M                                         %                          0            0   8".
Definition b3439 : text := " 013193 RELATIVE HUMIDITY                                                %                          0            0   8                                                    ".
Definition b3440 : text := " 013194 TOTAL COLUMN WATER                                               KG/M**2                    2            0  11                                                    ".
Definition b3441 : text := " 013195 RAIN RATE                                                        KG/M**2HOUR                0            0   5                                                    ".
Definition b3442 : text := " 013196 ANTECEDENT PRECIPITATION INDEX                                   KG/M**2                    0            0   7                                                    ".
Definition b3443 : text := " 013197 TOTAL COLUMN WATER VAPOUR                                        KG/M**2                    1            0  10                                                    ".
Definition b3444 : text := " 013198 RAIN FLAG                                                        CODE TABLE 13198           0            0   3                                                    ".
Definition b3445 : text := " 013199 SPECIFIC HUMIDITY AT 2 M                                         KG/KG                      5            0  14                                                    ".
Definition b3446 : text := " 013201 CLOUD LIQUID WATER                                               KG/KG                      7            0  14                                                    ".
Definition b3447 : text := " 013202 TYPE OF SURFACE                                                  CODE TABLE 13202           0            0   8                                                    ".
Definition b3448 : text := " 013203 1D VAR ESTIMATE OF RAIN RATE                                     KG/M**2*HOUR               2            0  12                                                    ".
Definition b3449 : text := " 013204 SSMI INDEPENDENT ESTIMATE OF RAIN RATE                           KG/M**2*HOUR               2            0  12                                                    ".
Definition b3450 : text := " 013205 CLOUD LIQUID WATER PATH                                          KG/M**2                    4            0  14                                                    ".
Definition b3451 : text := " 013206 TOTAL PRECIPITATION ICE CONTENT                                  KG/M**2                    6            0  14                                                    ".
Definition b3452 : text := " 013207 TOTAL CLOUD LIQUID WATER                                         KG/M**2                    6            0  14                                                    ".
Definition b3453 : text := " 013208 SURFACE RAIN RATE ( INSTANTANEOUS )                              KG/M**2*S                  5            0  17                                                    ".
Definition b3454 : text := " 013209 RAIN POSSIBILITY                                                 NUMERIC                    0         -256   9                                                    ".
Definition b3455 : text := " 013210 1D VAR CLOUD LIQUID WATER PATH RETRIEVED ERROR(S)                KG/M**2                    4            0  14                                                    ".
Definition b3456 : text := " 013211 TOTAL PRECIPITABLE WATER INDIPENDENT ESTIMATE OF ERROR(S)        KG/M**2                    2            0  11                                                    ".
Definition b3457 : text := " 013212 CLOUD LIQUID WATER PATH INDIPENDENT ESTIMATE OF ERROR(S)         KG/M**2                    4            0  14                                                    ".
Definition b3458 : text := " 013230 CONVECTIVE PRECIPITATION                                         KG/M**2                    1           -1  14                                                    ".
Definition b3459 : text := " 013231 LARGE SCALE PRECIPITATION                                        KG/M**2                    1           -1  14                                                    ".
Definition b3460 : text := " 013240 AIR DENSITY                                                      KG/M**3                    3            0  10                                                    ".
Definition b3461 : text := " 013241 CONVECTIVE AVAILABLE POTENTIAL ENERGY                            J/KG                       1            0  17                                                    ".
Definition b3462 : text := " 014001 LONG-WAVE RADIATION, INTEGRATED OVER 24 HOURS                    J/M**2                    -3       -65536  17 J/M**2                   -3         5              ".
Definition b3463 : text := " 014002 LONG-WAVE RADIATION, INTEGRATED OVER PERIOD SPECIFIED            J/M**2                    -3       -65536  17 J/M**2                   -3         5              ".
Definition b3464 : text := " 014003 SHORT-WAVE RADIATION, INTEGRATED OVER 24 HOURS                   J/M**2                    -3       -65536  17 J/M**2                   -3         5              ".
Definition b3465 : text := " 014004 SHORT-WAVE RADIATION, INTEGRATED OVER PERIOD SPECIFIED           J/M**2                    -3       -65536  17 J/M**2                   -3         5              ".
Definition b3466 : text := " 014011 NET LONG-WAVE RADIATION, INTEGRATED OVER 24 HOURS                J/M**2                    -3       -65536  17 J/M**2                   -3         5              ".
Definition b3467 : text := " 014012 NET LONG-WAVE RADIATION, INTEGRATED OVER PERIOD SPECIFIED        J/M**2                    -3       -65536  17 J/M**2                   -3         5              ".
Definition b3468 : text := " 014013 NET SHORT-WAVE RADIATION, INTEGRATED OVER 24 HOURS               J/M**2                    -3       -65536  17 J/M**2                   -3         5              ".
Definition b3469 : text := " 014014 NET SHORT-WAVE RADIATION, INTEGRATED OVER PERIOD SPECIFIED       J/M**2                    -3       -65536  17 J/M**2                   -3         5              ".
Definition b3470 : text := " 014015 NET RADIATION, INTEGRATED OVER 24 HOURS                          J/M**2                    -4       -16384  15 J/M**2                   -4         5              ".
Definition b3471 : text := " 014016 NET RADIATION, INTEGRATED OVER PERIOD SPECIFIED                  J/M**2                    -4       -16384  15 J/M**2                   -4         5              ".
Definition b3472 : text := " 014017 INSTANTANEOUS LONG-WAVE RADIATION (SEE NOTE 6)                   W/M**2                     0         -512  10 W/M**2                    0         4              ".
Definition b3473 : text := " 014018 INSTANTANEOUS SHORT-WAVE RADIATION (SEE NOTE 6)                  W/M**2                     0        -2048  12 W/M**2                    0         4              ".
Definition b3474 : text := " 014019 SURFACE ALBEDO                                                   %                          0            0   7 %                         0         3              ".
Definition b3475 : text := " 014020 GLOBAL SOLAR RADIATION, INTEGRATED OVER 24 HOURS                 J/M**2                    -4            0  15 J/M**2                   -4         5              ".
Definition b3476 : text := " 014021 GLOBAL SOLAR RADIATION, INTEGRATED OVER PERIOD SPECIFIED         J/M**2                    -4            0  15 J/M**2                   -4         5              ".
Definition b3477 : text := " 014022 DIFFUSE SOLAR RADIATION, INTEGRATED OVER 24 HOURS                J/M**2                    -4            0  15 J/M**2                   -4         5              ".
Definition b3478 : text := " 014023 DIFFUSE SOLAR RADIATION, INTEGRATED OVER PERIOD SPECIFIED        J/M**2                    -4            0  15 J/M**2                   -4         5              ".
Definition b3479 : text := " 014024 DIRECT SOLAR RADIATION, INTEGRATED OVER 24 HOURS                 J/M**2                    -4            0  15 J/M**2                   -4         5              ".
Definition b3480 : text := " 014025 DIRECT SOLAR RADIATION, INTEGRATED OVER PERIOD SPECIFIED         J/M**2                    -4            0  15 J/M**2                   -4         5              ".
Definition b3481 : text := " 014026 ALBEDO AT THE TOP OF CLOUDS                                      %                          0            0   7 %                         0         3              ".
Definition b3482 : text := " 014027 ALBEDO                                                           %                          0            0   7 %                         0         3              ".
Definition b3483 : text := " 014028 GLOBAL SOLAR RADIATION (HIGH ACCURACY), INTEGRATED OVER PERIOD S J/M**2                    -2            0  20 J/M**2                   -2         6              ".
Definition b3484 : text := " 014029 DIFFUSE SOLAR RADIATION (HIGH ACCURACY), INTEGRATED OVER PERIOD  J/M**2                    -2            0  20 J/M**2                   -2         6              ".
Definition b3485 : text := " 014030 DIRECT SOLAR RADIATION (HIGH ACCURACY), INTEGRATED OVER PERIOD S J/M**2                    -2            0  20 J/M**2                   -2         6              ".
Definition b3486 : text := " 014031 TOTAL SUNSHINE                                                   MINUTE                     0            0  11 MINUTE                    0         4              ".
Definition b3487 : text := " 014032 TOTAL SUNSHINE                                                   HOUR                       0            0  10 HOUR                      0         4              ".
Definition b3488 : text := " 014033 TOTAL SUNSHINE                                                   %                          0            0   9 %                         0         3              ".
Definition b3489 : text := " 014034 SUNSHINE OVER PERIOD SPECIFIED                                   MINUTE                     0            0  11 MINUTE                    0         4              ".
Definition b3490 : text := " 014035 SOLAR RADIATION FLUX                                             W/M**2                     1            0  14 W/M**2                    1         5".
Definition b3491 : text := " 014042 BI-DIRECTIONAL REFLECTANCE                                       %                          0            0   7 %                         0         3              ".
Definition b3492 : text := " 014045 CHANNEL RADIANCE                                                 (W/M**2)*(1/SR)*CM         0            0  11 WM-2SR-1CM                0         4              ".
Definition b3493 : text := " 014046 SCALED IASI RADIANCE                                             (W/M**2)*(1/SR)*M          0        -5000  16 (W/M**2)*(1/SR)*M         0         5              ".
Definition b3494 : text := " 014047 SCALED MEAN AVHRR RADIANCE                                       (W/M**2)*(1/SR)*M          0            0  31 (W/M**2)*(1/SR)*M         0        10              ".
Definition b3495 : text := " 014048 SCALED STANDARD DEVIATION RADIANCE                               (W/M**2)*(1/SR)*M          0            0  31 (W/M**2)*(1/SR)*M         0        10              ".
Definition b3496 : text := " 014050 EMISSIVITY (SEE NOTE 5)                                          %                          1            0  10 %                         1         4              ".
Definition b3497 : text := " 014051 DIRECT SOLAR RADIATION INTEGRATED OVER LAST HOUR                 J/M**2                    -3            0  14 JM-2                     -3         4              ".
Definition b3498 : text := " 014055 SOLAR ACTIVITY INDEX                                             NUMERIC                    0       -32768  16 NUMERIC                   0         5              ".
Definition b3499 : text := " 014061 (VAL) INSTANTANEOUS LONG-WAVE RADIATION                          W/M**2                     0         -512  10 W/M**2                    0         4              ".
Definition b3500 : text := " 014062 (VAL) INSTANTANEOUS SHORT-WAVE RADIATION                         W/M**2                     0        -2048  12 W/M**2                    0         4              ".
Definition b3501 : text := " 015001 TOTAL OZONE                                                      DU                         0            0  10 DU                        0         4              ".
Definition b3502 : text := " 015002 AIR MASS (SLANT PATH AT 22 KM)                                   NUMERIC                    2            0  10 NUMERIC                   2         3              ".
Definition b3503 : text := " 015003 MEASURED OZONE PARTIAL PRESSURE (SOUNDING)                       PA                         4            0   9 NBAR                      0         3              ".
Definition b3504 : text := " 015004 OZONE SOUNDING CORRECTION FACTOR                                 NUMERIC                    3            0  11 NUMERIC                   3         4              ".
Definition b3505 : text := " 015005 OZONE P                                                          DU                         0            0  10 DU                        0         3              ".
Definition b3506 : text := " 015008 SIGNIFICAND OF VOLUMETRIC MIXING RATIO                           NUMERIC                    0            0  10 NUMERIC                   0         4              ".
Definition b3507 : text := " 015011 LOG 10 OF INTEGRATED ELECTRON DENSITY                            LOG (1/M2)                 3        14000  13 LOG (M-2)                 3         4              ".
Definition b3508 : text := " 015012 TOTAL ELECTRON COUNT PER SQUARE METER                            1/M**2                   -16            0   6 1/M**2                  -16         2              ".
Definition b3509 : text := " 015015 MAXIMUM IMAGE SPECTRAL COMPONENT BEFORE NORMALIZATION            NUMERIC                    0            0  31 NUMERIC                   0        10              ".
Definition b3510 : text := " 015020 INTEGRATED 03 DENSITY                                            KG/M**2                    8            0  21 KG/M**2                   8         7              ".
Definition b3511 : text := " 015021 INTEGRATED MASS DENSITY                                          KG/M**2                   11            0  31 KG/M**2                  11        10              ".
Definition b3512 : text := " 015024 OPTICAL DEPTH                                                    NUMERIC                    4            0  24 NUMERIC                   4         8              ".
Definition b3513 : text := " 015025 TYPE OF POLLUTANT                                                CODE TABLE 15025           0            0   4 CODE TABLE 15025          0         2              ".
Definition b3514 : text := " 015026 CONCENTRATION OF POLLUTANT                                       MOLMOL-1                   9            0   9 MOLMOL-1                  9         3              ".
Definition b3515 : text := " 015027 CONCENTRATION OF POLLUTANT                                       KG/M3                      9            0  10 KG/M3                     9         4              ".
Definition b3516 : text := " 015030 AEROSOL CONTAMINATION INDEX                                      NUMERIC                    2        -1000  12 NUMERIC                   2         4              ".
Definition b3517 : text := " 015031 ATMOSPHERIC PATH DELAY IN SATELLITE SIGNAL                       M                          4        10000  15 M                         4         5              ".
Definition b3518 : text := " 015032 ESTIMATED ERROR IN ATMOSPHERIC PATH DELAY                        M                          4            0  10 M                         4         4              ".
Definition b3519 : text := " 015033 DIFFERENCE IN PATH DELAYS FOR LIMB VIEWS AT EXTREMES OF SCAN     M                          5       -10000  15 M                         5         5              ".
Definition b3520 : text := " 015034 ESTIMATED ERROR IN PATH DELAY DIFFERENCE                         M                          5            0  14 M                         5         5              ".
Definition b3521 : text := " 015035 COMPONENT OF ZENITH PATH DELAY DUE TO WATER VAPOUR               M                          4            0  14 M                         4         5              ".
Definition b3522 : text := " 015036 ATMOSPHERIC REFRACTIVITY (SEE NOTE 5)                            N-UNITS                    3            0  19 N-UNITS                   3         6              ".
Definition b3523 : text := " 015037 BENDING ANGLE                                                    RADIANS                    8      -100000  23 RADIANS                   8         7              ".
Definition b3524 : text := " 015202 INTEGRATED ELECTRON DENSITY                                      1/M**2                     3        13000  12                                                    ".
Definition b3525 : text := " 015231 ATMOSPHERIC PATH DELAY IN SATELLITE SIGNAL                       M                          4            0  15                                                    ".
Definition b3526 : text := " 019001 TYPE OF SYNOPTIC FEATURE                                         CODE TABLE 19001           0            0   6 CODE TABLE 19001          0         2              ".
Definition b3527 : text := " 019002 EFFECTIVE RADIUS OF FEATURE                                      M                         -2            0  12 M                        -2         4              ".
Definition b3528 : text := " 019003 WIND SPEED THRESHOLD                                             M/S                        0            0   8 M/S                       0         3              ".
Definition b3529 : text := " 019004 EFFECTIVE RADIUS WITH RESPECT TO WIND SPEEDS ABOVE THRESHOLD     M                         -2            0  12 M                        -2         4              ".
Definition b3530 : text := " 019005 DIRECTION OF MOTION OF FEATURE                                   DEGREE TRUE                0            0   9 DEGREE TRUE               0         3              ".
Definition b3531 : text := " 019006 SPEED OF MOTION OF FEATURE                                       M/S                        2            0  14 M/S                       2         5              ".
Definition b3532 : text := " 019007 EFFECTIVE RADIUS OF FEATURE                                      M                         -3            0  12 M                        -3         4              ".
Definition b3533 : text := " 019008 VERTICAL EXTENT OF CIRCULATION                                   CODE TABLE 19008           0            0   3 CODE TABLE 19008          0         1              ".
Definition b3534 : text := " 019009 EFFECTIVE RADIUS WITH RESPECT TO WIND SPEEDS ABOVE THRESHOLD (LA M                         -3            0  12 M                        -3         4              ".
Definition b3535 : text := " 019010 METHOD FOR TRACKING THE CENTRE OF SYNOPTIC FEATURE               CODE TABLE 19010           0            0   4 CODE TABLE 19010          0         2              ".
Definition b3536 : text := " 019100 TIME INTERVAL TO CALCULATE THE MOVEMENT OF THE TROPICAL CYCLONE  CODE TABLE 19100           0            0   4 CODE TABLE 19100          0         2              ".
Definition b3537 : text := " 019101 ACCURACY OF THE POSITION OF THE CENTRE OF THE TROPICAL CYCLONE   CODE TABLE 19101           0            0   4 CODE TABLE 19101          0         2              ".
Definition b3538 : text := " 019102 SHAPE AND DEFINITION OF THE EYE OF THE TROPICAL CYCLONE          CODE TABLE 19102           0            0   3 CODE TABLE 19102          0         1              ".
Definition b3539 : text := " 019103 DIAMETER OF MAJOR AXIS OF THE EYE OF THE TROPICAL CYCLONE        CODE TABLE 19103           0            0   4 CODE TABLE 19103          0         2              ".
Definition b3540 : text := " 019104 CHANGE IN CHARACTER OF THE EYE DURING THE 30 MINUTES             CODE TABLE 19104           0            0   4 CODE TABLE 19104          0         2              ".
Definition b3541 : text := " 019105 DISTANCE BETWEEN THE END OF SPIRAL BAND AND THE CENTRE           CODE TABLE 19105           0            0   4 CODE TABLE 19105          0         2              ".
Definition b3542 : text := " 019106 IDENTIFICATION NUMBER OF TROPICAL CYCLONE                        NUMERIC                    0            0   7 NUMERIC                   0         3              ".
Definition b3543 : text := " 019107 TIME INTERVAL OF THE TROPICAL CYCLONE ANALYSIS                   CODE TABLE 19107           0            0   4 CODE TABLE 19107          0         2              ".
Definition b3544 : text := " 019108 ACCURACY OF GEOGRAPHICAL POSITION OF THE TROPICAL CYCLONE        CODE TABLE 19108           0            0   3 CODE TABLE 19108          0         1              ".
Definition b3545 : text := " 019109 MEAN DIAMETER OF THE OVERCAST CLOUD OF THE TROPICAL CYCLONE      CODE TABLE 19109           0            0   4 CODE TABLE 19109          0         2              ".
Definition b3546 : text := " 019110 APPARENT 24-HOUR CHANGE IN INTENSITY OF TROPICAL CYCLONE         CODE TABLE 19110           0            0   4 CODE TABLE 19110          0         2              ".
Definition b3547 : text := " 019111 CURRENT INTENSITY (CI) NUMBER OF THE TROPICAL CYCLONE            NUMERIC                    1            0   7 NUMERIC                   1         3              ".
Definition b3548 : text := " 019112 DATA TROPICAL (DT) NUMBER OF THE TROPICAL CYCLONE                NUMERIC                    1            0   7 NUMERIC                   1         3              ".
Definition b3549 : text := " 019113 CLOUD PATTERN TYPE OF THE DT- NUMBER                             CODE TABLE 19113           0            0   4 CODE TABLE 19113          0         2              ".
Definition b3550 : text := " 019114 MODEL EXPECTED TROPICAL (MET) NUMBER OF THE TROPICAL CYCLONE     NUMERIC                    1            0   7 NUMERIC                   1         3              ".
Definition b3551 : text := " 019115 TREND OF PAST 24-HOUR CHANGE (+: DEVELOPED, -: WEAKENED)         NUMERIC                    1          -30   6 NUMERIC                   1         2              ".
Definition b3552 : text := " 019116 PATTERN TROPICAL (PT) NUMBER OF THE TROPICAL CYCLONE             NUMERIC                    1            0   7 NUMERIC                   1         3              ".
Definition b3553 : text := " 019117 CLOUD PICTURE TYPE OF THE PT- NUMBER                             CODE TABLE 19117           0            0   3 CODE TABLE 19117          0         1              ".
Definition b3554 : text := " 019118 FINAL TROPICAL (T) NUMBER OF THE TROPICAL CYCLONE                NUMERIC                    1            0   7 NUMERIC                   1         3              ".
Definition b3555 : text := " 019119 TYPE OF THE FINAL T-NUMBER                                       CODE TABLE 19119           0            0   3 CODE TABLE 19119          0         1              ".
Definition b3556 : text := " 019150 TYPHOON INTERNATIONAL COMMON NUMBER (TYPHOON COMMITTEE)          CCITTIA5                   0            0  32 CHARACTER                 0         4              ".
Definition b3557 : text := " 020001 HORIZONTAL VISIBILITY                                            M                         -1            0  13 M                        -1         4              ".
Definition b3558 : text := " 020002 VERTICAL VISIBILITY                                              M                         -1            0   7 M                        -1         3              ".
Definition b3559 : text := " 020003 PRESENT WEATHER (SEE NOTE 1)                                     CODE TABLE 20003           0            0   9 CODE TABLE 20003          0         3              ".
Definition b3560 : text := " 020004 PAST WEATHER (1) (SEE NOTE 2)                                    CODE TABLE 20004           0            0   5 CODE TABLE 20004          0         2              ".
Definition b3561 : text := " 020005 PAST WEATHER (2) (SEE NOTE 2)                                    CODE TABLE 20005           0            0   5 CODE TABLE 20005          0         2              ".
Definition b3562 : text := " 020006 FLIGHT RULES                                                     CODE TABLE 20006           0            0   3 CODE TABLE 20006          0         1".
Definition b3563 : text := " 020008 CLOUD DISTRIBUTION FOR AVIATION                                  CODE TABLE 20008           0            0   5 CODE TABLE 20008          0         2              ".
Definition b3564 : text := " 020009 GENERAL WEATHER INDICATOR (TAF/METAR)                            CODE TABLE 20009           0            0   4 CODE TABLE 20009          0         2              ".
Definition b3565 : text := " 020010 CLOUD COVER (TOTAL)                                              %                          0            0   7 %                         0         3              ".
Definition b3566 : text := " 020011 CLOUD AMOUNT                                                     CODE TABLE 20011           0            0   4 CODE TABLE 20011          0         2              ".
Definition b3567 : text := " 020012 CLOUD TYPE                                                       CODE TABLE 20012           0            0   6 CODE TABLE 20012          0         2              ".
Definition b3568 : text := " 020013 HEIGHT OF BASE OF CLOUD                                          M                         -1          -40  11 M                        -1         4              ".
Definition b3569 : text := " 020014 HEIGHT OF TOP OF CLOUD                                           M                         -1          -40  11 M                        -1         4              ".
Definition b3570 : text := " 020015 PRESSURE AT BASE OF CLOUD                                        PA                        -1            0  14 PA                       -1         5              ".
Definition b3571 : text := " 020016 PRESSURE AT TOP OF CLOUD                                         PA                        -1            0  14 PA                       -1         5              ".
Definition b3572 : text := " 020017 CLOUD TOP DESCRIPTION                                            CODE TABLE 20017           0            0   4 CODE TABLE 20017          0         2              ".
Definition b3573 : text := " 020018 TENDENCY OF RUNWAY VISUAL RANGE                                  CODE TABLE 20018           0            0   2 CODE TABLE 20018          0         1              ".
Definition b3574 : text := " 020019 SIGNIFICANT PRESENT OR FORECAST WEATHER                          CCITTIA5                   0            0  72 CHARACTER                 0         9              ".
Definition b3575 : text := " 020020 SIGNIFICANT RECENT WEATHER PHENOMENA                             CCITTIA5                   0            0  32 CHARACTER                 0         4              ".
Definition b3576 : text := " 020021 TYPE OF PRECIPITATION                                            FLAG TABLE 20021           0            0  30 FLAG TABLE 20021          0        10              ".
Definition b3577 : text := " 020022 CHARACTER OF PRECIPITATION                                       CODE TABLE 20022           0            0   4 CODE TABLE 20022          0         2              ".
Definition b3578 : text := " 020023 OTHER WEATHER PHENOMENA                                          FLAG TABLE 20023           0            0  18 FLAG TABLE 20023          0         6              ".
Definition b3579 : text := " 020024 INTENSITY OF PHENOMENA                                           CODE TABLE 20024           0            0   3 CODE TABLE 20024          0         1              ".
Definition b3580 : text := " 020025 OBSCURATION                                                      FLAG TABLE 20025           0            0  21 FLAG TABLE 20025          0         7              ".
Definition b3581 : text := " 020026 CHARACTER OF OBSCURATION                                         CODE TABLE 20026           0            0   4 CODE TABLE 20026          0         2              ".
Definition b3582 : text := " 020027 PHENOMENA OCCURRENCE                                             FLAG TABLE 20027           0            0   9 FLAG TABLE 20027          0         3              ".
Definition b3583 : text := " 020028 EXPECTED CHANGE IN INTENSITY                                     CODE TABLE 20028           0            0   3 CODE TABLE 20028          0         1              ".
Definition b3584 : text := " 020029 RAIN FLAG                                                        CODE TABLE 20029           0            0   2 CODE TABLE 20029          0         1              ".
Definition b3585 : text := " 020031 ICE DEPOSIT (THICKNESS)                                          M                          2            0   7 M                         2         3              ".
Definition b3586 : text := " 020032 RATE OF ICE ACCRETION                                            CODE TABLE 20032           0            0   3 CODE TABLE 20032          0         1              ".
Definition b3587 : text := " 020033 CAUSE OF ICE ACCRETION                                           FLAG TABLE 20033           0            0   4 FLAG TABLE 20033          0         2              ".
Definition b3588 : text := " 020034 SEA ICE CONCENTRATION                                            CODE TABLE 20034           0            0   5 CODE TABLE 20034          0         2              ".
Definition b3589 : text := " 020035 AMOUNT AND TYPE OF ICE                                           CODE TABLE 20035           0            0   4 CODE TABLE 20035          0         2              ".
Definition b3590 : text := " 020036 ICE SITUATION                                                    CODE TABLE 20036           0            0   5 CODE TABLE 20036          0         2              ".
Definition b3591 : text := " 020037 ICE DEVELOPMENT                                                  CODE TABLE 20037           0            0   5 CODE TABLE 20037          0         2              ".
Definition b3592 : text := " 020038 BEARING OF ICE EDGE (SEE NOTE 3)                                 DEGREE TRUE                0            0  12 DEGREE TRUE               0         3              ".
Definition b3593 : text := " 020039 ICE DISTANCE                                                     M                         -1            0  13 M                        -1         4              ".
Definition b3594 : text := " 020040 EVOLUTION OF DRIFT OF SNOW                                       CODE TABLE 20040           0            0   4 CODE TABLE 20040          0         2              ".
Definition b3595 : text := " 020041 AIRFRAME ICING                                                   CODE TABLE 20041           0            0   4 CODE TABLE 20041          0         2              ".
Definition b3596 : text := " 020042 AIRFRAME ICING PRESENT                                           CODE TABLE 20042           0            0   2 CODE TABLE 20042          0         1              ".
Definition b3597 : text := " 020043 PEAK LIQUID WATER CONTENT                                        KG/M**3                    4            0   7 KG/M**3                   4         2              ".
Definition b3598 : text := " 020044 AVERAGE LIQUID WATER CONTENT                                     KG/M**3                    4            0   7 KG/M**3                   4         2              ".
Definition b3599 : text := " 020045 SUPERCOOLED LARGE DROPLET (SLD) CONDITIONS                       CODE TABLE 20045           0            0   2 CODE TABLE 20045          0         2              ".
Definition b3600 : text := " 020048 EVOLUTION OF FEATURE                                             CODE TABLE 20048           0            0   4 CODE TABLE 20048          2         2              ".
Definition b3601 : text := " 020050 CLOUD INDEX                                                      CODE TABLE 20050           0            0   8 CODE TABLE 20050          0         3              ".
Definition b3602 : text := " 020051 AMOUNT OF LOW CLOUDS                                             %                          0            0   7 %                         0         3              ".
Definition b3603 : text := " 020052 AMOUNT OF MIDDLE CLOUDS                                          %                          0            0   7 %                         0         3              ".
Definition b3604 : text := " 020053 AMOUNT OF HIGH CLOUDS                                            %                          0            0   7 %                         0         3              ".
Definition b3605 : text := " 020054 TRUE DIRECTION FROM WHICH CLOUDS ARE MOVING                      DEGREE TRUE                0            0   9 DEGREE TRUE               0         3              ".
Definition b3606 : text := " 020055 STATE OF SKY IN TROPICS                                          CODE TABLE 20055           0            0   4 CODE TABLE 20055          0         2              ".
Definition b3607 : text := " 020056 CLOUD PHASE                                                      CODE TABLE 20056           0            0   3 CODE TABLE 20056          0         1              ".
Definition b3608 : text := " 020058 VISIBILITY SEAWARD FROM COASTA STATION                           M                         -1            0  13 M                        -1         4".
Definition b3609 : text := " 020060 PREVAILING HORIZONTAL VISIBILITY                                 M                         -1            0  10 M                        -1         4              ".
Definition b3610 : text := " 020061 RUNWAY VISUAL RANGE (RVR)                                        M                          0            0  12 M                         0         4              ".
Definition b3611 : text := " 020062 STATE OF THE GROUND (WITH OR WITHOUT SNOW)                       CODE TABLE 20062           0            0   5 CODE TABLE 20062          0         2              ".
Definition b3612 : text := " 020063 SPECIAL PHENOMENA                                                CODE TABLE 20063           0            0  10 CODE TABLE 20063          0         4              ".
Definition b3613 : text := " 020065 SNOW COVER (SEE NOTE 4)                                          %                          0            0   7 %                         0         3              ".
Definition b3614 : text := " 020066 MAXIMUM DIAMETER OF HAILSTONES                                   M                          3            0   8 M                         3         3              ".
Definition b3615 : text := " 020067 DIAMETER OF DEPOSIT                                              M                          3            0   9 M                         3         3              ".
Definition b3616 : text := " 020070 MINIMUM NUMBER OF ATMOSPHERICS                                   NUMERIC                    0            0   7 NUMERIC                   0         3              ".
Definition b3617 : text := " 020071 ACCURACY OF FIX AND RATE OF ATMOSPHERICS                         CODE TABLE 20071           0            0   4 CODE TABLE 20071          0         2              ".
Definition b3618 : text := " 020081 CLOUD AMOUNT IN SEGMENT                                          %                          0            0   7 %                         0         3              ".
Definition b3619 : text := " 020082 AMOUNT SEGMENT CLOUD FREE                                        %                          0            0   7 %                         0         3              ".
Definition b3620 : text := " 020083 AMOUNT OF SEGMENT COVERED BY SCENE                               %                          0            0   7 %                         0         3              ".
Definition b3621 : text := " 020085 GENERAL CONDITION OF RUNWAY                                      CODE TABLE 20085           0            0   4 CODE TABLE 20085          0         1              ".
Definition b3622 : text := " 020086 RANWAY DEPOSITS                                                  CODE TABLE 20086           0            0   4 CODE TABLE 20086          0         1              ".
Definition b3623 : text := " 020087 RUNWAY CONTAMINATION                                             CODE TABLE 20087           0            0   4 CODE TABLE 20087          0         1              ".
Definition b3624 : text := " 020088 DEPTH OF RANWAY DEPOSITS                                         M                          3            0  12 M                         3         4              ".
Definition b3625 : text := " 020089 RUNWAY FRICTION COEFICIENT                                       CODE TABLE 20089           0            0   7 CODE TABLE 20089          0         2              ".
Definition b3626 : text := " 020090 SPECIAL CLOUDS                                                   CODE TABLE 20090           0            0   4 CODE TABLE 20090          0         2              ".
Definition b3627 : text := " 020091 VERTICAL VISIBILITY                                              FOOT                      -2            0  10 FEET                     -2         3              ".
Definition b3628 : text := " 020092 HEIGHT OF BASE OF CLOUD                                          FOOT                      -2            0  10 FEET                     -2         3              ".
Definition b3629 : text := " 020095 ICE PROBABILITY                                                  NUMERIC                    3            0  10 NUMERIC                   3         4              ".
Definition b3630 : text := " 020096 ICE AGE (""A"" PARAMETER)                                          dB                         2        -4096  13 dB                        2         4              ".
Definition b3631 : text := " 020101 LOCUST (ACRIDIAN) NAME                                           CODE TABLE 20101           0            0   4 CODE TABLE 20101          0         2              ".
Definition b3632 : text := " 020102 LOCUST (MATURITY) COLOR                                          CODE TABLE 20102           0            0   4 CODE TABLE 20102          0         2              ".
Definition b3633 : text := " 020103 STAGE OF DEVELOPMENT OF LOCUSTS                                  CODE TABLE 20103           0            0   4 CODE TABLE 20103          0         2              ".
Definition b3634 : text := " 020104 ORGANIZATION STATE OF SWARM OR BAND OF LOCUSTS                   CODE TABLE 20104           0            0   4 CODE TABLE 20104          0         2              ".
Definition b3635 : text := " 020105 SIZE OF SWARM OR BAND OF LOCUSTS AND DURATION OF PASSAGE OF SWARMCODE TABLE 20105           0            0   4 CODE TABLE 20105          0         2              ".
Definition b3636 : text := " 020106 LOCUST POPULATION DENSITY                                        CODE TABLE 20106           0            0   4 CODE TABLE 20106          0         2              ".
Definition b3637 : text := " 020107 DIRECTION OF MOVEMENTS OF LOCUST SWARM                           CODE TABLE 20107           0            0   4 CODE TABLE 20107          0         2              ".
Definition b3638 : text := " 020108 EXTENT OF VEGETATION                                             CODE TABLE 20108           0            0   4 CODE TABLE 20108          0         2              ".
Definition b3639 : text := " 020192 SPECIAL PHENOMENA                                                CODE TABLE 020192          0            0  14                                                    ".
Definition b3640 : text := " 020193 CLOUD AMOUNT IN SEGMENT                                          %                          0            0   7 %                         0         3              ".
Definition b3641 : text := " 020194 AMOUNT OF SEGMENT CLOUD FREE                                     %                          0            0   7 %                         0         3              ".
Definition b3642 : text := " 020215 PRESSURE AT THE BASE OF CLOUD                                    PA                        -1            0  14 PA                       -1         5              ".
Definition b3643 : text := " 020249 SEA-ICE FRACTION                                                 NUMERIC                    2            0   7 NUMERIC                   2         3              ".
Definition b3644 : text := " 020250 CALCULATED SURFACE TYPE                                          CODE TABLE 20250           0            0   5                                                    ".
Definition b3645 : text := " 020251 ICE AGE                                                          CODE TABLE 20251           0            0   3                                                    ".
Definition b3646 : text := " 020252 ICE EDGE                                                         CODE TABLE 20252           0            0   3                                                    ".
Definition b3647 : text := " 020253 SURFACE TYPE                                                     CODE TABLE 20253           0            0   3                                                    ".
Definition b3648 : text := " 020254 ICE CONCENTRATION                                                %                          0            0   7                                                    ".
Definition b3649 : text := " 021001 HORIZONTAL REFLECTIVITY                                          dB                         0          -64   7 dB                        0         3              ".
Definition b3650 : text := " 021002 VERTICAL REFLECTIVITY                                            dB                         0          -64   7 dB                        0         3              ".
Definition b3651 : text := " 021003 DIFFERENTIAL REFLECTIVITY                                        dB                         1           -5   7 dB                        1         3              ".
Definition b3652 : text := " 021005 LINEAR DEPOLARISATION RATIO                                      dB                         0          -65   6 dB                        0         2              ".
Definition b3653 : text := " 021006 CIRCULAR DEPOLARISATION RATIO                                    dB                         0          -65   6 dB                        0         2              ".
Definition b3654 : text := " 021011 DOPPLER MEAN VELOCITY IN X-DIRECTION                             M/S                        0         -128   8 M/S                       0         3              ".
Definition b3655 : text := " 021012 DOPPLER MEAN VELOCITY IN Y-DIRECTION                             M/S                        0         -128   8 M/S                       0         3              ".
Definition b3656 : text := " 021013 DOPPLER MEAN VELOCITY IN Z-DIRECTION                             M/S                        0         -128   8 M/S                       0         3              ".
Definition b3657 : text := " 021014 DOPPLER MEAN VELOCITY (RADIAL)                                   M/S                        1        -4096  13 M/S                       1         4              ".
Definition b3658 : text := " 021017 DOPPLER VELOCITY SPECTRAL WIDTH                                  M/S                        1            0   8 M/S                       1         3              ".
Definition b3659 : text := " 021021 ECHO TOPS                                                        M                         -3            0   4 M                        -3         2              ".
Definition b3660 : text := " 021030 SIGNAL TO NOISE RATIO                                            dB                         0          -32   8 dB                        0         3              ".
Definition b3661 : text := " 021031 VERTICALLY INTEGRATED LIQUID-WATER CONTENT                       KG/M**2                    0            0   7 KG/M**2                   0         3              ".
Definition b3662 : text := " 021036 RADAR RAINFALL INTENSITY                                         M/S                        7            0  12 M/S                       7         4              ".
Definition b3663 : text := " 021041 BRIGHT-BAND HEIGHT                                               M                         -2            0   8 M                        -2         3              ".
Definition b3664 : text := " 021051 SIGNAL POWER ABOVE 1 MW                                          dB                         0         -256   8 dB                        0         3              ".
Definition b3665 : text := " 021062 BACKSCATTER                                                      dB                         2        -5000  13 dB                        2         4              ".
Definition b3666 : text := " 021063 RADIOMETRIC RESOLUTION (NOISE VALUE)                             %                          1            0  10 %                         1         4              ".
Definition b3667 : text := " 021064 CLUTTER NOISE ESTIMATE                                           NUMERIC                    0            0   8 NUMERIC                   0         3              ".
Definition b3668 : text := " 021065 MISSING PACKET COUNTER                                           NUMERIC                    0         -127   8 NUMERIC                   0         3              ".
Definition b3669 : text := " 021066 WAVE SCATTEROMETER PRODUCT CONFIDENCE DATA                       FLAG TABLE 21066           0            0  12 FLAG TABLE 21066          0         4              ".
Definition b3670 : text := " 021067 WIND PRODUCT CONFIDENCE DATA                                     FLAG TABLE 21067           0            0  13 FLAG TABLE 21067          0         5              ".
Definition b3671 : text := " 021068 RADAR ALTIMETER PRODUCT CONFIDENCE DATA                          FLAG TABLE 21068           0            0   8 FLAG TABLE 21068          0         3              ".
Definition b3672 : text := " 021069 SST PRODUCT CONFIDENCE DATA                                      FLAG TABLE 21069           0            0  10 FLAG TABLE 21069          0         4              ".
Definition b3673 : text := " 021070 SST PRODUCT CONFIDENCE DATA (SADIST-2)                           FLAG TABLE 21070           0            0  23 FLAG TABLE 21070          0         6              ".
Definition b3674 : text := " 021071 PEAKINESS                                                        NUMERIC                    0            0  16 NUMERIC                   0         5              ".
Definition b3675 : text := " 021072 SATELLITE ALTIMETER CALIBRATION STATUS                           FLAG TABLE 21072           0            0   4 FLAG TABLE 21072          0         2              ".
Definition b3676 : text := " 021073 SATELLLITE ALTIMETER INSTRUMENT MODE                             FLAG TABLE 21073           0            0   9 FLAG TABLE 21073          0         3              ".
Definition b3677 : text := " 021075 IMAGE SPECTRUM INTENSITY                                         NUMERIC                    0            0   8 NUMERIC                   0         3              ".
Definition b3678 : text := " 021076 REPRESENTATION OF INTENSITIES                                    CODE TABLE 21076           0            0   3 CODE TABLE 21076          0         1              ".
Definition b3679 : text := " 021077 ALTITUDE CORRECTION (IONOSPHERE)                                 M                          3            0  14 M                         3         5              ".
Definition b3680 : text := " 021078 ALTITUDE CORRECTION (DRY TROPOSPHERE)                            M                          3            0   9 M                         3         3              ".
Definition b3681 : text := " 021079 ALTITUDE CORRECTION (WET TROPOSPHERE)                            M                          3         2000  10 M                         3         4              ".
Definition b3682 : text := " 021080 ALTITUDE CORRECTION (CALIBRATION CONSTANT)                       M                          3            0  11 M                         3         4              ".
Definition b3683 : text := " 021081 OPEN LOOP CORRECTION (HEIGHT-TIME LOOP)                          M                          3            0  10 M                         3         4              ".
Definition b3684 : text := " 021082 OPEN LOOP CORRECTION (AUTO GAIN CONTROL)                         dB                         3        -3000  14 dB                        3         5              ".
Definition b3685 : text := " 021083 WARM TARGET CALIBRATION                                          NUMERIC                    0            0  16 NUMERIC                   0         5              ".
Definition b3686 : text := " 021084 COLD TARGET CALIBRATION                                          NUMERIC                    0            0  16 NUMERIC                   0         5              ".
Definition b3687 : text := " 021085 ATSR SEA SURFACE TEMPERATURE ACROSS- TRACK BAND NUMBER           NUMERIC                    0            0   4 NUMERIC                   0         2              ".
Definition b3688 : text := " 021086 NUMBER OF PIXELS IN NADIR ONLY, AVERAGE                          NUMERIC                    0            0   9 NUMERIC                   0         3              ".
Definition b3689 : text := " 021087 NUMBER OF PIXELS IN DUAL VIEW, AVERAGE                           NUMERIC                    0            0   9 NUMERIC                   0         3              ".
Definition b3690 : text := " 021088 WET BACKSCATTER                                                  dB                         2        -5000  13 dB                        2         4              ".
Definition b3691 : text := " 021091 RADAR SIGNAL DOPPLER SPECTRUM 0TH MOMENT                         dB                         0         -100   8 dB                        0         3              ".
Definition b3692 : text := " 021092 RASS SIGNAL DOPPLER SPECTRUM 0TH MOMENT, REFERRING TO RASS SIGNA dB                         0         -100   8 dB                        0         3              ".
Definition b3693 : text := " 021093 Ku BAND PEAKINESS                                                NUMERIC                    3            0  16 NUMERIC                   0         5              ".
Definition b3694 : text := " 021094 S BAND PEAKINESS                                                 NUMERIC                    3            0  16 NUMERIC                   0         5              ".
Definition b3695 : text := " 021101 NUMBER OF VECTOR AMBIGUITIES                                     NUMERIC                    0            0   3 NUMERIC                   0         1              ".
Definition b3696 : text := " 021102 INDEX OF SELECTED WIND VECTOR                                    NUMERIC                    0            0   3 NUMERIC                   0         1              ".
Definition b3697 : text := " 021103 TOTAL NUMBER OF SIGMA-0 MEASUREMENTS                             NUMERIC                    0            0   5 NUMERIC                   0         2              ".
Definition b3698 : text := " 021104 LIKELIHOOD COMPUTED FOR SOLUTION                                 NUMERIC                    3       -30000  15 NUMERIC                   3         5              ".
Definition b3699 : text := " 021105 NORMALIZED RADAR CROSS-SECTION                                   dB                         2       -10000  14 dB                        2         5              ".
Definition b3700 : text := " 021106 KP VARIANCE COEFFICIENT (ALPHA)                                  NUMERIC                    3            0  14 NUMERIC                   3         5              ".
Definition b3701 : text := " 021107 KP VARIANCE COEFFICIENT (BETA)                                   NUMERIC                    8            0  16 NUMERIC                   8         5              ".
Definition b3702 : text := " 021109 SEAWINDS WIND VECTOR CELL QUALITY                                FLAG TABLE 21109           0            0  17 FLAG TABLE 21109          0         6              ".
Definition b3703 : text := " 021110 NUMBER OF INNER-BEAM SIGMA-0 (FORWARD OF SATELLITE)              NUMERIC                    0            0   6 NUMERIC                   0         2              ".
Definition b3704 : text := " 021111 NUMBER OF OUTER-BEAM SIGMA-0 (FORWARD OF SATELLITE)              NUMERIC                    0            0   6 NUMERIC                   0         2              ".
Definition b3705 : text := " 021112 NUMBER OF INNER-BEAM SIGMA-0 (AFT OF SATELLITE)                  NUMERIC                    0            0   6 NUMERIC                   0         2              ".
Definition b3706 : text := " 021113 NUMBER OF OUTER-BEAM SIGMA-0 (AFT OF SATELLITE)                  NUMERIC                    0            0   6 NUMERIC                   0         2              ".
Definition b3707 : text := " 021114 KP VARIANCE COEFFICENT (GAMMA)                                   dB                         3      -140000  18 dB                        3         6              ".
Definition b3708 : text := " 021115 SEAWINDS SIGMA-0 QUALITY                                         FLAG TABLE 21115           0            0  17 FLAG TABLE 21115          0         6              ".
Definition b3709 : text := " 021116 SEAWINDS SIGMA-0 MODE                                            FLAG TABLE 21116           0            0  17 FLAG TABLE 21116          0         6              ".
Definition b3710 : text := " 021117 SIGMA-0 VARIANCE QUALITY CONTROL                                 NUMERIC                    2            0  16 NUMERIC                   2         5              ".
Definition b3711 : text := " 021118 ATTENUATION CORRECTION ON SIGMA-0                                dB                         2       -10000  14 dB                        2         5              ".
Definition b3712 : text := " 021119 WIND SCATTEROMETER GEOPHYSICAL MODEL FUNCTION                    CODE TABLE 21119           0            0   6 CODE TABLE 21119          0         2              ".
Definition b3713 : text := " 021120 PROBABILITY OF RAIN                                              NUMERIC                    3            0  10 NUMERIC                   3         4              ".
Definition b3714 : text := " 021121 SEAWINDS NOF* RAIN INDEX                                         NUMERIC                    0            0   8 NUMERIC                   0         3              ".
Definition b3715 : text := " 021122 ATTENUATION CORRECTION OF SIGMA-0 (FROM TB)                      dB                         2       -10000  14 dB                        2         5              ".
Definition b3716 : text := " 021123 SEAWINDS NORMALIZED RADAR CROSS SECTION                          dB                         2       -30000  15 dB                        2         5              ".
Definition b3717 : text := " 021128 NUMBER OF VALID POINTS PER SECOND USED TO DERIVE PREVIOUS PARAME NUMERIC                    0            0   8 NUMERIC                   0         3              ".
Definition b3718 : text := " 021130 SPECTRUM TOTAL ENERGY                                            NUMERIC                    6            0  28 NUMERIC                   6         9              ".
Definition b3719 : text := " 021131 SPECTRUM MAX ENERGY                                              NUMERIC                    6            0  28 NUMERIC                   6         9              ".
Definition b3720 : text := " 021132 DIRECTION OF SPECTRUM MAX ON HIGHER RESOLUTION GRID              DEGREE                     3            0  19 DEGREE                    3         6              ".
Definition b3721 : text := " 021133 WAVE-LENGTH OF SPECTRUM MAX ON HIGHER RESOLUTION GRID            M                          3            0  29 M                         3         9              ".
Definition b3722 : text := " 021134 RANGE RESOLUTION OF CRESS COVARIANCE SPECTRUM                    RAD/M                      3            0  19 RAD/M                     3         6              ".
Definition b3723 : text := " 021135 REAL PART OF CROSS SPECTRA POLAR GRID NUMBER OF BINS             NUMERIC                    3      -524288  20 NUMERIC                   3         7              ".
Definition b3724 : text := " 021136 IMAGINARY PART OF CROSS SPECTRA POLAR GRID NUMBER OF BINS        NUMERIC                    3      -524288  20 NUMERIC                   3         7              ".
Definition b3725 : text := " 021137 KU BAND CORRECTED OCEAN BACKSCATTER COEFFICIENT                  dB                         2       -32768  16 dB                        2         5              ".
Definition b3726 : text := " 021138 STD KU BAND CORRECTED OCEAN BACKSCATTER COEFFICIENT              dB                         2       -32768  16 dB                        2         5              ".
Definition b3727 : text := " 021139 KU BAND NET INSTRUMENTAL CORRECTION FOR AGC                      dB                         2        -2048  12 dB                        2         4              ".
Definition b3728 : text := " 021140 S BAND CORRECTED OCEAN BACKSCATTER COEFFICIENT                   dB                         2       -32768  16 dB                        2         5              ".
Definition b3729 : text := " 021141 STD S BAND CORRECTED OCEAN BACKSCATTER COEFFICIENT               dB                         2       -32768  16 dB                        2         5              ".
Definition b3730 : text := " 021142 S BAND NET INSTRUMENTAL CORRECTION FOR AGC                       dB                         2        -1024  11 dB                        2         4              ".
Definition b3731 : text := " 021143 KU BAND RAIN ATTENUATION                                         dB                         2  -1073741824  31 dB                        2        10              ".
Definition b3732 : text := " 021144 ALTIMETER RAIN FLAG                                              FLAG TABLE 21144           0            0   2 FLAG TABLE 21144          0         1              ".
Definition b3733 : text := " 021145 KU BAND AUTOMATIC GAIN CONTROL                                   dB                         2            0  13                                                    ".
Definition b3734 : text := " 021146 RMS KU BAND AUTOMATIC GAIN CONTROL                               dB                         2            0   8                                                    ".
Definition b3735 : text := " 021147 NUMBER OF VALID POINTS FOR KU BAND AUTOMATIC GAIN CONTROL        NUMERIC                    0            0   5                                                    ".
Definition b3736 : text := " 021150 BEAM COLLOCATION                                                 CODE TABLE 21150           0            0   2 CODE TABLE 21150          0         1              ".
Definition b3737 : text := " 021151 ESTIMATED ERROR IN SIGMA0 AT 40DEG INCIDENCE ANGLE               dB                         2            0   9 dB                        2         3              ".
Definition b3738 : text := " 021152 SLOPE AT 40DEG INCIDENCE ANGLE                                   dB/DEG                     2          -80   7 dB/DEG                    2         3              ".
Definition b3739 : text := " 021153 ESTIMATED ERROR IN SLOPE AT 40DEG INCIDENCE ANGLE                dB/DEG                     2          -40   6 dB/DEG                    2         3              ".
Definition b3740 : text := " 021154 SOIL MOISTURE SENSITIVITY                                        dB                         2            0  12 dB                        2         4              ".
Definition b3741 : text := " 021155 WIND VECTOR CELL QUALITY                                         FLAG TABLE 21155           0            0  24 FLAG TABLE 21155          0         8              ".
Definition b3742 : text := " 021156 BACKSCATTER DISTANCE                                             NUMERIC                    1        -4096  13 NUMERIC                   1         4              ".
Definition b3743 : text := " 021157 LOSS PER UNIT LENGTH OF ATMOSPHERE USED                          dB/M                      10            0  22 dB/M                     10         7              ".
Definition b3744 : text := " 021158 ASCAT kp ESTIMATE QUALITY                                        CODE TABLE 21158           0            0   2 CODE TABLE 21158          0         1              ".
Definition b3745 : text := " 021159 ASCAT SIGMA-0 USABILITY                                          CODE TABLE 21159           0            0   2 CODE TABLE 21159          0         1              ".
Definition b3746 : text := " 021160 ASCAT USE OF SYNTHETIC DATA                                      NUMERIC                    3            0  10 NUMERIC                   3         4              ".
Definition b3747 : text := " 021161 ASCAT SYNTHETIC DATA QUALITY                                     NUMERIC                    3            0  10 NUMERIC                   3         4              ".
Definition b3748 : text := " 021162 ASCAT SATELLITE ORBIT AND ATTITUDE QUALITY                       NUMERIC                    3            0  10 NUMERIC                   3         4              ".
Definition b3749 : text := " 021163 ASCAT SOLAR ARRAY REFLECTION CONTAMINATION                       NUMERIC                    3            0  10 NUMERIC                   3         4              ".
Definition b3750 : text := " 021164 ASCAT TELEMETRY PRESENCE AND QUALITY                             NUMERIC                    3            0  10 NUMERIC                   3         4              ".
Definition b3751 : text := " 021165 ASCAT EXTRAPOLATED REFERENCE FUNCTION PRESENCE                   NUMERIC                    3            0  10 NUMERIC                   3         4              ".
Definition b3752 : text := " 021166 LAND FRACTION                                                    NUMERIC                    3            0  10 NUMERIC                   3         4              ".
Definition b3753 : text := " 021169 ICE PRESENCE INDICATOR                                           CODE TABLE                 0            0   2                                                    ".
Definition b3754 : text := " 021170 C BAND CORRECTED OCEAN BACKSCATTER COEFICIENT                    dB                         2       -32768  16                                                    ".
Definition b3755 : text := " 021171 RMS C BAND CORRECTED OCEAN BACKSCATTER COEFICIENT                dB                         2       -32768  16                                                    ".
Definition b3756 : text := " 021172 C BAND NET INSTRUMENTAL CORRECTION FOR AGC                       dB                         2        -2048  12                                                    ".
Definition b3757 : text := " 021173 C BAND AUTOMATIC GAIN CONTROL                                    dB                         2            0  13                                                    ".
Definition b3758 : text := " 021174 RMS C BAND AUTOMATIC GAIN CONTROL                                dB                         2            0   9                                                    ".
Definition b3759 : text := " 021175 NUMBER OF VALID POINTS FOR C BAND AUTOMATIC GAIN CONTROL         NUMERIC                    0            0  10                                                    ".
Definition b3760 : text := " 021192 RADAR BACK SCATTER                                               dB                         2        -5000  13".
Definition b3761 : text := " 021193 NOISE FIGURE                                                     %                          0            0   7                                                    ".
Definition b3762 : text := " 021194 BACKGROUND NOISE LEVEL                                           NUMERIC                    0            0   8                                                    ".
Definition b3763 : text := " 021195 MISSING PACKET COUNTER                                           NUMERIC                    0         -127   8                                                    ".
Definition b3764 : text := " 021196 UWA PRODUCT CONFIDENCE                                           FLAG TABLE 21196           0            0  12                                                    ".
Definition b3765 : text := " 021197 UWI PRODUCT CONFIDENCE                                           FLAG TABLE 21197           0            0  12                                                    ".
Definition b3766 : text := " 021198 URA PRODUCT CONFIDENCE                                           FLAG TABLE 21198           0            0   8                                                    ".
Definition b3767 : text := " 021199 UAT PRODUCT CONFIDENCE                                           FLAG TABLE 21199           0            0   7                                                    ".
Definition b3768 : text := " 021200 MWI PRODUCT CONFIDENCE                                           FLAG TABLE 21200           0            0  15                                                    ".
Definition b3769 : text := " 021201 PEAKINESS                                                        NUMERIC                    0            0  16                                                    ".
Definition b3770 : text := " 021202 ALTIMETER CALIBRATION STATUS                                     FLAG TABLE 21202           0            0   4                                                    ".
Definition b3771 : text := " 021203 ALTIMETER INSTRUMENT MODE                                        FLAG TABLE 21203           0            0   9                                                    ".
Definition b3772 : text := " 021204 MULTI/SINGLE VIEW DIFFERENCE                                     K                          2         -512  10                                                    ".
Definition b3773 : text := " 021205 SPECTRAL INTENSITY                                               NUMERIC                    0            0   8                                                    ".
Definition b3774 : text := " 021206 REPRESENTATION OF INTENSITY                                      CODE TABLE 21206           0            0   3                                                    ".
Definition b3775 : text := " 021207 ALTITUDE CORRECTION (IONOSPHERE)                                 M                          3            0  14                                                    ".
Definition b3776 : text := " 021208 ALTITUDE CORRECTION (DRY TROPOSPHERE)                            M                          3            0   9                                                    ".
Definition b3777 : text := " 021209 LTITUDE CORRECTION (WET TROPOSPHERE)                             M                          3         2000  10                                                    ".
Definition b3778 : text := " 021210 ALTITUDE CORRECTION (CALIBRATION CONSTANT)                       M                          3            0  11                                                    ".
Definition b3779 : text := " 021211 OPEN LOOP CORRECTION (HTL)                                       M                          3            0  10                                                    ".
Definition b3780 : text := " 021212 OPEN LOOP CORRECTION (AGC)                                       dB                         3        -3000  14                                                    ".
Definition b3781 : text := " 021213 AMBIGUITY REMOVAL CONFIDENCE                                     %                          0            0   7                                                    ".
Definition b3782 : text := " 021214 UAT QUALITY SUMMARY                                              CODE TABLE 21214           0            0   3                                                    ".
Definition b3783 : text := " 021215 UAT ACROSS-TRACK BAND NO.                                        NUMERIC                    0            0   4                                                    ".
Definition b3784 : text := " 021222 DOPPLER SPECTRUM 0 TH MOMENT (AMPLITUDE)                         dB                         0            0   7                                                    ".
Definition b3785 : text := " 021225 PRESCAT PRODUCT CONFIDENCE                                       FLAG TABLE 21225           0            0   6                                                    ".
Definition b3786 : text := " 021226 BACKSCATER DISTANCE                                              NUMERIC                    1        -4096  13                                                    ".
Definition b3787 : text := " 021227 GLARE ANGLE                                                      CODE TABLE 21227           0            6   6                                                    ".
Definition b3788 : text := " 021230 NUMBER OF VECTOR AMBIGUITIES                                     NUMERIC                    0            0   3                                                    ".
Definition b3789 : text := " 021231 INDEX OF SELECTED WIND VECTOR                                    NUMERIC                    0            0   3                                                    ".
Definition b3790 : text := " 021232 TOTAL NMBER OF SIGMA-0 MEASUREMENTS                              NUMERIC                    0            0   5                                                    ".
Definition b3791 : text := " 021233 NUMBER OF SIGMA-0 USABLE FOR WIND                                NUMERIC                    0            0   5                                                    ".
Definition b3792 : text := " 021234 LIKELIHOOD COMPUTED FOR SOLUTION                                 NUMERIC                    1       -10000  14                                                    ".
Definition b3793 : text := " 021235 WIND VECTOR CELL QUALITY FLAG                                    FLAG TABLE 21235           0            0   3                                                    ".
Definition b3794 : text := " 021236 NUMBER OF FORE-BEAM SIGMA-0                                      NUMERIC                    1            0   6                                                    ".
Definition b3795 : text := " 021237 NUMBER OF MID-BEAM V-POL SIGMA-0                                 NUMERIC                    1            0   6                                                    ".
Definition b3796 : text := " 021238 NUMBER OF MID-BEAM H-POL SIGMA-0                                 NUMERIC                    1            0   6                                                    ".
Definition b3797 : text := " 021239 NUMBER OF AFT-BEAM SIGMA-0                                       NUMERIC                    1            0   6                                                    ".
Definition b3798 : text := " 021240 NORMALIZED RADAR CROSS SECTION                                   NUMERIC                    2       -10000  14                                                    ".
Definition b3799 : text := " 021241 Kp VARIANCE COEFFICIENT (ALPHA)                                  NUMERIC                    5            0  14                                                    ".
Definition b3800 : text := " 021242 Kp VARIANCE COEFFICIENT (BETHA)                                  NUMERIC                    6            0  16                                                    ".
Definition b3801 : text := " 021243 Kp VARIANCE COEFFICIENT (GAMMA)                                  NUMERIC                    6            0  16                                                    ".
Definition b3802 : text := " 021244 SIGMA-0 QUALITY FLAG                                             FLAG TABLE 21244           0            0  15                                                    ".
Definition b3803 : text := " 022001 DIRECTION OF WAVES                                               DEGREE TRUE                0            0   9 DEGREE TRUE               0         3              ".
Definition b3804 : text := " 022002 DIRECTION OF WIND WAVES                                          DEGREE TRUE                0            0   9 DEGREE TRUE               0         3              ".
Definition b3805 : text := " 022003 DIRECTION OF SWELL WAVES                                         DEGREE TRUE                0            0   9 DEGREE TRUE               0         3              ".
Definition b3806 : text := " 022004 DIRECTION OF CURRENT                                             DEGREE TRUE                0            0   9 DEGREE TRUE               0         3              ".
Definition b3807 : text := " 022005 DIRECTION OF SEA SURFACE CURRENT                                 DEGREE TRUE                0            0   9 DEGREE TRUE               0         3              ".
Definition b3808 : text := " 022011 PERIOD OF WAVES                                                  S                          0            0   6 S                         0         2              ".
Definition b3809 : text := " 022012 PERIOD OF WIND WAVES                                             S                          0            0   6 S                         0         2              ".
Definition b3810 : text := " 022013 PERIOD OF SWELL WAVES                                            S                          0            0   6 S                         0         2              ".
Definition b3811 : text := " 022021 HEIGHT OF WAVES                                                  M                          1            0  10 M                         1         4              ".
Definition b3812 : text := " 022022 HEIGHT OF WIND WAVES                                             M                          1            0  10 M                         1         4              ".
Definition b3813 : text := " 022023 HEIGHT OF SWELL WAVES                                            M                          1            0  10 M                         1         4              ".
Definition b3814 : text := " 022025 STANDARD DEVIATION WAVE HEIGHT                                   M                          2            0  10 M                         2         4              ".
Definition b3815 : text := " 022026 STANDARD DEVIATION OF SIGNIFICANT WAVE HEIGHT                    M                          2            0  10 M                         2         4              ".
Definition b3816 : text := " 022031 SPEED OF CURRENT                                                 M/S                        2            0  13 M/S                       2         4              ".
Definition b3817 : text := " 022032 SPEED OF SEA SURFACE CURRENT                                     M/S                        2            0  13 M/S                       2         4              ".
Definition b3818 : text := " 022035 TIDAL ELEVATION WITH RESPECT TO LOCAL CHART DATUM                M                          2            0  14 M                         2         4              ".
Definition b3819 : text := " 022036 METEOROLOGICAL RESIDUAL TIDAL ELEVATION (SURGE OR OFFSET)        M                          2            0  14 M                         2         4              ".
Definition b3820 : text := " 022037 TIDAL ELEVATION WITH RESPECT TO NATIONAL LAND DATUM              M                          3       -10000  15 M                         3         5              ".
Definition b3821 : text := " 022038 TIDAL ELEVATION WITH RESPECT TO LOCAL CHART DATUM                M                          3       -10000  15 M                         3         5              ".
Definition b3822 : text := " 022039 METEOROLOGICAL RESIDUAL TIDAL ELEVATION (SURGE OR OFFSET)        M                          3        -5000  12 M                         3         4              ".
Definition b3823 : text := " 022040 METEOROLOGICAL RESIDUAL TIDAL ELEVATION (SURGE OR OFFSET)        M                          3        -5000  14 M                         3         5              ".
Definition b3824 : text := " 022041 SEA-SURFACE TEMPERATURE (15-DAY RUNNING MEAN)                    K                          1            0  12 K                         1         4              ".
Definition b3825 : text := " 022042 SEA/WATER TEMPERATURE                                            K                          1            0  12 K                         1         4              ".
Definition b3826 : text := " 022043 SEA/WATER TEMPERATURE                                            K                          2            0  15 K                         2         5              ".
Definition b3827 : text := " 022044 SOUND VELOCITY                                                   M/S                        1            0  14 M/S                       1         5              ".
Definition b3828 : text := " 022045 SEA/WATER TEMPERATURE                                            K                          3            0  19 K                         3         6              ".
Definition b3829 : text := " 022046 SEA ICE FRACTION                                                 NUMERIC                    2            0   7 NUMERIC                   2         3".
Definition b3830 : text := " 022049 SEA SURFACE TEMPERATURE                                          K                          2            0  15 K                         2         5              ".
Definition b3831 : text := " 022050 STANDARD DEVIATION SEA-SURFACE TEMPERATURE                       K                          2            0   8 K                         2         3              ".
Definition b3832 : text := " 022055 FLOAT CYCLE NUMBER                                               NUMERIC                    0            0  10 NUMERIC                   0         3              ".
Definition b3833 : text := " 022056 DIRECTION OF PROFILE                                             CODE TABLE 22056           0            0   2 CODE TABLE 22056          0         1              ".
Definition b3834 : text := " 022059 SEA SURFACE SALINITY                                             PART PER THOUSAND          2            0  14 PART PER THOUSAND         2         5              ".
Definition b3835 : text := " 022060 LAGRANGIAN DRIFTER DROGUE STATUS                                 CODE TABLE 22060           0            0   3 CODE TABLE 22060          0         1              ".
Definition b3836 : text := " 022061 STATE OF THE SEA                                                 CODE TABLE 22061           0            0   4 CODE TABLE 22061          0         2              ".
Definition b3837 : text := " 022062 SALINITY                                                         PART PER THOUSAND          2            0  14 PART PER THOUSAND         2         5              ".
Definition b3838 : text := " 022063 TOTAL WATER DEPTH                                                M                          0            0  14 M                         0         5              ".
Definition b3839 : text := " 022064 SALINITY                                                         PART PER THOUSAND          3            0  17 PART PER THOUSAND         3         6              ".
Definition b3840 : text := " 022065 WATER PRESSURE                                                   PA                        -3            0  17 PA                       -3         6              ".
Definition b3841 : text := " 022066 WATER CONDUCTIVITY                                               S M-1                      6            0  26 S M-1                     6         8              ".
Definition b3842 : text := " 022067 INSTRUMENT TYPE FOR WATER TEMPERATURE PROFILE MEASUREMENT        CODE TABLE 22067           0            0  10 CODE TABLE 22067          0         4              ".
Definition b3843 : text := " 022068 WATER TEMPERATURE PROFILE RECORDER TYPES                         CODE TABLE 22068           0            0   7 CODE TABLE 22068          0         3              ".
Definition b3844 : text := " 022069 SPECTRAL WAVE DENSITY                                            M2HZ-1                     3            0  22 M2HZ-1                    3         7              ".
Definition b3845 : text := " 022070 SIGNIFICANT WAVE HEIGHT                                          M                          2            0  13 M                         2         4              ".
Definition b3846 : text := " 022071 SPECTRAL PEAK WAVE PERIOD                                        S                          1            0   9 S                         1         3              ".
Definition b3847 : text := " 022072 SPECTRAL PEAK WAVE LENGTH                                        M                          0            0  13 M                         0         4              ".
Definition b3848 : text := " 022073 MAXIMUM WAVE HEIGHT                                              M                          2            0  13 M                         2         4              ".
Definition b3849 : text := " 022074 AVERAGE WAVE PERIOD                                              S                          1            0   9 S                         1         3              ".
Definition b3850 : text := " 022075 AVERAGE WAVE LENGTH                                              M                          0            0  13 M                         0         4              ".
Definition b3851 : text := " 022076 DIRECTION FROM WHICH DOMINANT WAVES ARE COMING                   DEGREE TRUE                0            0   9 DEGREE TRUE               0         3              ".
Definition b3852 : text := " 022077 DIRECTIONAL SPREAD OF DOMINANT WAVE                              DEGREE                     0            0   9 DEGREE                    0         3              ".
Definition b3853 : text := " 022078 DURATION OF WAVE RECORD                                          S                          0            0  12 S                         0         4              ".
Definition b3854 : text := " 022079 LENGTH OF WAVE RECORD                                            M                          0            0  16 M                         0         5              ".
Definition b3855 : text := " 022080 WAVEBAND CENTRAL FREQUENCY                                       Hz                         3            0  10 Hz                        3         4              ".
Definition b3856 : text := " 022081 WAVEBAND CENTRAL WAVE NUMBER                                     1/M                        5            0  13 1/M                       5         4              ".
Definition b3857 : text := " 022082 MAXIMUM NON-DIRECTIONAL SPECTRAL WAVE DENSITY                    M**2S                      2            0  20 M**2S                     2         7              ".
Definition b3858 : text := " 022083 MAXIMUM NON-DIRECTIONAL SPECTRAL WAVE NUMBER                     M**3                       2            0  20 M**3                      2         7              ".
Definition b3859 : text := " 022084 BAND CONTAINING MAXIMUM NON- DIRECTIONAL SPECTRAL WAVE DENSITY   NUMERIC                    0            0   7 NUMERIC                   0         3              ".
Definition b3860 : text := " 022085 SPECTRAL WAVE DENSITY RATIO                                      NUMERIC                    0            0   7 NUMERIC                   0         3              ".
Definition b3861 : text := " 022086 MEAN DIRECTION FROM WHICH WAVES ARE COMING                       DEGREE TRUE                0            0   9 DEGREE TRUE               0         3              ".
Definition b3862 : text := " 022087 PRINCIPAL DIRECTION FROM WHICH WAVES ARE COMING                  DEGREE TRUE                0            0   9 DEGREE TRUE               0         3              ".
Definition b3863 : text := " 022088 FIRST NORMALIZED POLAR COORDINATE FROM FOURIER COEFFICIENTS      NUMERIC                    2            0   7 NUMERIC                   2         3              ".
Definition b3864 : text := " 022089 SECOND NORMALIZED POLAR COORDINATE FROM FOURIER COEFFICIENTS     NUMERIC                    2            0   7 NUMERIC                   2         3              ".
Definition b3865 : text := " 022090 NON-DIRECTIONAL SPECTRAL ESTIMATE BY WAVE FREQUENCY              M**2S                      2            0  20 M**2S                     2         7              ".
Definition b3866 : text := " 022091 NON-DIRECTIONAL SPECTRAL ESTIMATE BY WAVE NUMBER                 M**3                       2            0  20 M**3                      2         7              ".
Definition b3867 : text := " 022092 DIRECTIONAL SPECTRAL ESTIMATE BY WAVE FREQUENCY                  M**2S/RAD                  2            0  20 M**2S/RAD                 2         7              ".
Definition b3868 : text := " 022093 DIRECTIONAL SPECTRAL ESTIMATE BY WAVE NUMBER                     M**4                       2            0  20 M**4                      2         7              ".
Definition b3869 : text := " 022094 TOTAL NUMBER OF WAVE BANDS                                       NUMERIC                    0            0   7 NUMERIC                   0         3              ".
Definition b3870 : text := " 022095 DIRECTIONAL SPREAD OF INDIVIDUAL WAVES                           DEGREE                     0            0   8 DEGREE                    0         3              ".
Definition b3871 : text := " 022096 SPECTRAL BAND WIDTH                                              1/S                        3            0   4 1/S                       3         2              ".
Definition b3872 : text := " 022097 MEAN WAVELENGTH > 731 M OF IMAGE SPECTRUM AT LOW WAVE NUMBERS    M                          0            0  14 M                         0         5              ".
Definition b3873 : text := " 022098 WAVELENGTH SPREAD (WAVELENGTH > 731 M) AT LOW WAVE NUMBERS       M                          0            0  14 M                         0         5              ".
Definition b3874 : text := " 022099 MEAN DIRECTION AT LOW WAVE NUMBERS (WAVELENGTH > 731 M)          DEGREE TRUE                0            0   9 DEGREE TRUE               0         3              ".
Definition b3875 : text := " 022100 DIRECTION SPREAD AT LOW WAVE NUMBERS(WAVELENGTH > 731 M)         DEGREE                     0            0   9 DEGREE                    0         3              ".
Definition b3876 : text := " 022101 TOTAL ENERGY (WAVELENGTH > 731M) AT LOW WAVE NUMBERS             NUMERIC                    0            0  31 NUMERIC                   0        10              ".
Definition b3877 : text := " 022120 TIDE STATION AUTOMATED WATER LEVEL CHECK                         CODE TABLE 22120           0            0   5 CODE TABLE 22120          0         2              ".
Definition b3878 : text := " 022121 TIDE STATION MANUAL WATER LEVEL CHECK                            CODE TABLE 22121           0            0   5 CODE TABLE 22121          0         2              ".
Definition b3879 : text := " 022122 TIDE STATION AUTOMATED METEOROLOGICAL DATA CHECK                 CODE TABLE 22122           0            0   5 CODE TABLE 22122          0         2              ".
Definition b3880 : text := " 022123 TIDE STATION MANUAL METEOROLOGICAL DATA CHECK                    CODE TABLE 22123           0            0   5 CODE TABLE 22123          0         2              ".
Definition b3881 : text := " 022141 SEA-SURFACE TEMPERATURE (15-DAY RUNNING MEAN)                    K                          2            0  15 K                         2         5              ".
Definition b3882 : text := " 022150 NUMBER OF 18 HZ VALID POINTS FOR KU BAND                         NUMERIC                    0            0  10 NUMERIC                   0         4              ".
Definition b3883 : text := " 022151 KU BAND OCEAN RANGE                                              M                          3            0  31 M                         3        10              ".
Definition b3884 : text := " 022152 STD OF 18 HZ KU BAND OCEAN RANGE                                 M                          3            0  16 M                         3         5              ".
Definition b3885 : text := " 022153 NUMBER OF 18 HZ VALID POINTS FOR S BAND                          NUMERIC                    0            0  10 NUMERIC                   0         4              ".
Definition b3886 : text := " 022154 S BAND OCEAN RANGE                                               M                          3            0  31 M                         3        10              ".
Definition b3887 : text := " 022155 STD OF 18 HZ S BAND OCEAN RANGE                                  M                          3            0  16 M                         3         5              ".
Definition b3888 : text := " 022156 KU BAND SIGNIFICANT WAVE HEIGHT                                  M                          3            0  16 M                         3         5              ".
Definition b3889 : text := " 022157 STD 18HZ KU BAND SIGNIFICANT WAVE HEIGHT                         M                          3            0  16 M                         3         5              ".
Definition b3890 : text := " 022158 S BAND SIGNIFICANT WAVE HEIGHT                                   M                          3            0  16 M                         3         5              ".
Definition b3891 : text := " 022159 STD 18HZ S BAND SIGNIFICANT WAVE HEIGHT                          M                          3            0  16 M                         3         5              ".
Definition b3892 : text := " 022160 NORMALIZED INVERSE WAVE AGE                                      NUMERIC                    6            0  21 NUMERIC                   6         7              ".
Definition b3893 : text := " 022161 WAVE SPECTRA                                                     M**4                       4            0  27 M**4                      4         9              ".
Definition b3894 : text := " 022162 RMS OF 20Hz KU BAND OCEAN RANGE                                  M                          3            0  16                                                    ".
Definition b3895 : text := " 022163 NUMBER OF 20Hz VALID POINTS FOR KU BAND                          NUMERIC                    0            0  10                                                    ".
Definition b3896 : text := " 022164 RMS 20Hz KU BAND SIGNIFICANT WAVE HEIGHT                         M                          3            0  16                                                    ".
Definition b3897 : text := " 022165 NUMBER OF 20Hz VALID POINTS FOR KU BAND SIGNIFICANT WAVE HEIGHT  NUMERIC                    0            0  10                                                    ".
Definition b3898 : text := " 022166 KU BAND NET INSTRUMENTAL CORRECTION FOR SIGNIFICANT WAVE HEIGHT  M                          3        -1000  11                                                    ".
Definition b3899 : text := " 022167 NUMBER OF VALID POINTS FOR KU BAND BACKSCATTER                   NUMERIC                    0            0  10                                                    ".
Definition b3900 : text := " 022168 C BAND OCEAN RANGE                                               M                          3            0  31                                                    ".
Definition b3901 : text := " 022169 RMS OF C BAND OCEAN RANGE                                        M                          3            0  16                                                    ".
Definition b3902 : text := " 022170 NUMBER OF 20Hz VALID POINTS FOR C BAND                           NUMERIC                    0            0  10                                                    ".
Definition b3903 : text := " 022171 C BAND SIGNIFICANT WAVE HEIGHT                                   M                          3            0  16                                                    ".
Definition b3904 : text := " 022172 RMS 20Hz C BAND SIGNIFICANT WAVE HEIGHT                          M                          3            0  16                                                    ".
Definition b3905 : text := " 022173 NUMBER OF 20Hz VALID POINTS FOR C BAND                           NUMERIC                    0            0  10                                                    ".
Definition b3906 : text := " 022174 C BAND NET INSTRUMENTAL CORRECTION FOR SIGNIFICANT WAVE HEIGHT   M                          3        -1000  11                                                    ".
Definition b3907 : text := " 022175 NUMBER OF VALID POINTS FOR C BAND BACKSCATTER                    NUMERIC                    0            0  10                                                    ".
Definition b3908 : text := " 022192 SPECTRAL PERIOD                                                  S                          2            0  13".
Definition b3909 : text := " 022193 MEAN WAVENUMBER                                                  1/M                        5            0  15                                                    ".
Definition b3910 : text := " 022194 PEAK WAVENUMBER                                                  1/M                        5            0  15                                                    ".
Definition b3911 : text := " 022195 MEAN WAVE PROPAGATION DIRECTION                                  DEGREE                     1            0  13                                                    ".
Definition b3912 : text := " 022196 PEAK WAVE PROPAGATION DIRECTION                                  DEGREE                     1            0  13                                                    ".
Definition b3913 : text := " 022197 DIRECTION SPREAD                                                 DEGREE                     1            0  13                                                    ".
Definition b3914 : text := " 022198 VARIANCE SPECTRAL DENSITY                                        M**2*S/RAD                 4            0  18                                                    ".
Definition b3915 : text := " 022199 CORRELATION COEFF OF SIMULATED FG AND OBSERVED SAR SPECTRUM      NUMERIC                    4       -10000  15                                                    ".
Definition b3916 : text := " 022200 CORRELATION COEFF OF SIMULATED BF AND OBSERVED SAR SPECTRUM      NUMERIC                    4       -10000  15                                                    ".
Definition b3917 : text := " 022201 CORRELATION COEFF OF OCEAN WAVE FG AND EXTRACTED WAVE SPECTRUM   NUMERIC                    4       -10000  15                                                    ".
Definition b3918 : text := " 022202 ERROR BETWEEN FIRST GUESS AND OBSERVED SAR                       NUMERIC                    5            0  21                                                    ".
Definition b3919 : text := " 022203 ERROR BETWEEN SIMULATED AND OBSERVED SAR                         NUMERIC                    5            0  21                                                    ".
Definition b3920 : text := " 022204 MEAN PERIOD OF WAVES                                             SECOND                     2            0  13                                                    ".
Definition b3921 : text := " 022205 SPECTRAL DENSITY                                                 M**2*S/RAD                 4            0  25                                                    ".
Definition b3922 : text := " 022206 PEAK PERIOD OF WAVES                                             SECOND                     2            0  13                                                    ".
Definition b3923 : text := " 022207 MEAN WAVE PERIOD                                                 S                          1            0  10                                                    ".
Definition b3924 : text := " 022208 PEAK PERIOD OF 1D SPECTRA                                        S                          1            0  10                                                    ".
Definition b3925 : text := " 022209 COEFICIENT OF DRAG WITH WAVES                                    NUMERIC                    6            0  13                                                    ".
Definition b3926 : text := " 022210 MEAN SQUARE SLOPE OF WAVES                                       NUMERIC                    4       -10000  14                                                    ".
Definition b3927 : text := " 022211 COEFICIENT OF DRAG WITH WAVES                                    NUMERIC                    6            0  17                                                    ".
Definition b3928 : text := " 022243 STANDARD DEVIATION SIGNIFICANT WAVE HEIGHT                       M                          2            0  10                                                    ".
Definition b3929 : text := " 023001 ACCIDENT EARLY NOTIFICATION   ARTICLE APPLICABLE                 CODE TABLE 23001           0            0   3 CODE TABLE 23001          0         1              ".
Definition b3930 : text := " 023002 ACTIVITY OR FACILITY INVOLVED IN INCIDENT                        CODE TABLE 23002           0            0   5 CODE TABLE 23002          0         2              ".
Definition b3931 : text := " 023003 TYPE OF RELEASE                                                  CODE TABLE 23003           0            0   3 CODE TABLE 23003          0         1              ".
Definition b3932 : text := " 023004 COUNTERMEASURES TAKEN NEAR BORDER                                CODE TABLE 23004           0            0   3 CODE TABLE 23004          0         1              ".
Definition b3933 : text := " 023005 CAUSE OF INCIDENT                                                CODE TABLE 23005           0            0   2 CODE TABLE 23005          0         1              ".
Definition b3934 : text := " 023006 INCIDENT SITUATION                                               CODE TABLE 23006           0            0   3 CODE TABLE 23006          0         1              ".
Definition b3935 : text := " 023007 CHARACTERISTICS OF RELEASE                                       CODE TABLE 23007           0            0   3 CODE TABLE 23007          0         1              ".
Definition b3936 : text := " 023008 STATE OF CURRENT RELEASE                                         CODE TABLE 23008           0            0   2 CODE TABLE 23008          0         1              ".
Definition b3937 : text := " 023009 STATE OF EXPECTED RELEASE                                        CODE TABLE 23009           0            0   2 CODE TABLE 23009          0         1              ".
Definition b3938 : text := " 023016 POSSIBILITY OF SIGNIFICANT CHEMICAL TOXIC HEALTH EFFECT          CODE TABLE 23016           0            0   2 CODE TABLE 23016          0         1              ".
Definition b3939 : text := " 023017 FLOW DISCHARGE OF MAJOR RECIPIENT                                M**3/S                     6            0  20 M**3/S                    6         7              ".
Definition b3940 : text := " 023018 RELEASE BEHAVIOUR OVER TIME                                      CODE TABLE 23018           0            0   3 CODE TABLE 23018          0         1              ".
Definition b3941 : text := " 023019 ACTUAL RELEASE HEIGHT                                            M                          0       -15000  17 M                         0         6              ".
Definition b3942 : text := " 023021 EFFECTIVE RELEASE HEIGHT                                         M                          0       -15000  17 M                         0         6              ".
Definition b3943 : text := " 023022 DISTANCE OF RELEASE POINT OR SITE OF INCIDENT                    M                          0            0  24 M                         0         8              ".
Definition b3944 : text := " 023023 MAIN TRANSPORT SPEED IN THE ATMOSPHERE                           M/S                        1            0  12 M/S                       1         4              ".
Definition b3945 : text := " 023024 MAIN TRANSPORT SPEED IN WATER                                    M/S                        2            0  13 M/S                       2         4              ".
Definition b3946 : text := " 023025 MAIN TRANSPORT SPEED IN GROUND WATER                             M/S                        2            0  13 M/S                       2         4              ".
Definition b3947 : text := " 023027 MAIN TRANSPORT DIRECTION IN THE ATMOSPHERE                       DEGREE TRUE                0            0   9 DEGREE TRUE               0         3              ".
Definition b3948 : text := " 023028 MAIN TRANSPORT DIRECTION IN WATER                                DEGREE TRUE                0            0   9 DEGREE TRUE               0         3              ".
Definition b3949 : text := " 023029 MAIN TRANSPORT DIRECTION IN GROUND WATER                         DEGREE TRUE                0            0   9 DEGREE TRUE               0         3              ".
Definition b3950 : text := " 023031 POSSIBILITY THAT PLUME WILL ENCOUNTER PRECIPITATION IN STATE IN  CODE TABLE 23031           0            0   2 CODE TABLE 23031          0         1              ".
Definition b3951 : text := " 023032 PLUME WILL ENCOUNTER CHANGE IN WIND DIRECTION AND/OR SPEED FLAG  CODE TABLE 23032           0            0   2 CODE TABLE 23032          0         1              ".
Definition b3952 : text := " 024001 ESTIMATE OF AMOUNT OF RADIOACTIVITY RELEASED UP TO SPECIFIED TIM Bq                       -11            0  28 Bq                      -11         9              ".
Definition b3953 : text := " 024002 ESTIMATED MAXIMUM POTENTIAL RELEASE                              Bq                       -11            0  28 Bq                      -11         9              ".
Definition b3954 : text := " 024003 COMPOSITION OF RELEASE                                           CODE TABLE 24003           0            0   5 CODE TABLE 24003          0         2              ".
Definition b3955 : text := " 024004 ELEMENT NAME                                                     CCITTIA5                   0            0  16 CHARACTER                 0         2              ".
Definition b3956 : text := " 024005 ISOTOPE MASS                                                     NUMERIC                    0            0   9 NUMERIC                   0         3              ".
Definition b3957 : text := " 024011 DOSE                                                             mSv                        2            0  32 mSv                       2        10              ".
Definition b3958 : text := " 024012 TRAJECTORY DOSE (DEFINED LOCATION AND EXPECTED TIME OF ARRIVAL)  mSv                        2            0  32 mSv                       2        10              ".
Definition b3959 : text := " 024013 GAMMA DOSE IN AIR ALONG THE MAIN TRANSPORT PATH (DEFINED LOCATIO mSv                        2            0  32 mSv                       2        10              ".
Definition b3960 : text := " 024021 AIR CONCENTRATION (OF NAMED ISOTOPE TYPE INCLUDING GROSS BETA)   Bq/M**3                    2            0  32 Bq/M**3                   2        10              ".
Definition b3961 : text := " 024022 CONCENTRATION IN PRECIPITATION (OF NAMES ISOTOPE TYPE)           Bq/L                       2            0  32 BQ L-1                    2        10              ".
Definition b3962 : text := " 024023 PULSE RATE OF BETA RADIATION                                     1/S                        1            0  14 1/S                       1         4              ".
Definition b3963 : text := " 024024 PULSE RATE OF GAMMA RADIATION                                    1/S                        1            0  14 1/S                       1         4              ".
Definition b3964 : text := " 025001 RANGE-GATE LENGTH                                                M                         -1            0   6 M                        -1         2              ".
Definition b3965 : text := " 025002 NUMBER OF GATES AVERAGED                                         NUMERIC                    0            0   4 NUMERIC                   0         2              ".
Definition b3966 : text := " 025003 NUMBER OF INTEGRATED PULSES                                      NUMERIC                    0            0   8 NUMERIC                   0         3              ".
Definition b3967 : text := " 025004 ECHO PROCESSING                                                  CODE TABLE 25004           0            0   2 CODE TABLE 25004          0         1              ".
Definition b3968 : text := " 025005 ECHO INTEGRATION                                                 CODE TABLE 25005           0            0   2 CODE TABLE 25005          0         1              ".
Definition b3969 : text := " 025006 Z TO R CONVERSION                                                CODE TABLE 25006           0            0   3 CODE TABLE 25006          0         1              ".
Definition b3970 : text := " 025007 Z TO R CONVERSION FACTOR                                         NUMERIC                    0            0  12 NUMERIC                   0         4              ".
Definition b3971 : text := " 025008 Z TO R CONVERSION EXPONENT                                       NUMERIC                    2            0   9 NUMERIC                   2         3              ".
Definition b3972 : text := " 025009 CALIBRATION METHOD                                               FLAG TABLE 25009           0            0   4 FLAG TABLE 25009          0         2              ".
Definition b3973 : text := " 025010 CLUTTER TREATMENT                                                CODE TABLE 25010           0            0   4 CODE TABLE 25010          0         2              ".
Definition b3974 : text := " 025011 GROUND OCCULTATION CORRECTION (SCREENING)                        CODE TABLE 25011           0            0   2 CODE TABLE 25011          0         1              ".
Definition b3975 : text := " 025012 RANGE ATTENUATION CORRECTION                                     CODE TABLE 25012           0            0   2 CODE TABLE 25012          0         1              ".
Definition b3976 : text := " 025013 BRIGHT-BAND CORRECTION                                           FLAG TABLE 25013           0            0   2 FLAG TABLE 25013          0         1              ".
Definition b3977 : text := " 025014 AZIMUTH CLUTTER CUT-OFF (SEE NOTE 1)                             NUMERIC                    0            0  12 NUMERIC                   0         4              ".
Definition b3978 : text := " 025015 RADOME ATTENUATION CORRECTION                                    FLAG TABLE 25015           0            0   2 FLAG TABLE 25015          0         1              ".
Definition b3979 : text := " 025016 CLEAR-AIR ATTENUATION CORRECTION                                 dB/M                       5            0   6 dB/M                      5         2              ".
Definition b3980 : text := " 025017 PRECIPITATION ATTENUATION CORRECTION                             FLAG TABLE 25017           0            0   2 FLAG TABLE 25017          0         1              ".
Definition b3981 : text := " 025018 A TO Z LAW FOR ATTENUATION FACTOR                                NUMERIC                    7            0   6 NUMERIC                   7         2              ".
Definition b3982 : text := " 025019 A TO Z LAW FOR ATTENUATION EXPONENT                              NUMERIC                    2            0   7 NUMERIC                   2         3              ".
Definition b3983 : text := " 025020 MEAN SPEED ESTIMATION                                            CODE TABLE 25020           0            0   2 CODE TABLE 25020          0         1              ".
Definition b3984 : text := " 025021 WIND COMPUTATION ENHANCEMENT                                     FLAG TABLE 25021           0            0   8 FLAG TABLE 25021          0         3              ".
Definition b3985 : text := " 025022 GHRSS REJECTION FLAG                                             FLAG TABLE 25022           0            0   9 FLAG TABLE 25022          0         3".
Definition b3986 : text := " 025023 GHRSS CONFIDENCE FLAG                                            FLAG TABLE 25023           0            0   9 FLAG TABLE 25023          0         3".
Definition b3987 : text := " 025024 GHRSS DATA QUALITY                                               CODE TABLE 25024           0            0   4 CODE TABLE 25024          0         2".
Definition b3988 : text := " 025025 BATTERY VOLTAGE                                                  V                          1            0   9 V                         1         3              ".
Definition b3989 : text := " 025026 BATTERY VOLTAGE (LARGE RANGE)                                    V                          1            0  12 V                         1         4              ".
Definition b3990 : text := " 025028 OPERATOR OR MANUFACTURER DEFINED PARAMETER                       NUMERIC                    1       -16384  15 NUMERIC                   1         5              ".
Definition b3991 : text := " 025029 CALIBRATION METHOD                                               FLAG TABLE 25029           0            0   6 FLAG TABLE 25029          0         2              ".
Definition b3992 : text := " 025030 RUNNING MEAN SEA-SURFACE TEMPERATURE USAGE                       CODE TABLE 25030           0            0   2 CODE TABLE 25030          0         1              ".
Definition b3993 : text := " 025032 WIND PROFILER MODE INFORMATION                                   CODE TABLE 25032           0            0   2 CODE TABLE 25032          0         1              ".
Definition b3994 : text := " 025033 WIND PROFILER SUBMODE INFORMATION*                               CODE TABLE 25033           0            0   2 CODE TABLE 25033          0         1              ".
Definition b3995 : text := " 025034 WIND PROFILER QUALITY CONTROL TEST RESULTS*                      FLAG TABLE 25034           0            0   4 FLAG TABLE 25034          0         2              ".
Definition b3996 : text := " 025036 ATMOSPHERICS LOCATION METHOD                                     CODE TABLE 25036           0            0   4 CODE TABLE 25036          0         2              ".
Definition b3997 : text := " 025037 SST BIAS                                                         K                          2         -127   8 K                         2         3".
Definition b3998 : text := " 025038 DIFFERENCE BETWEEN SST AND ANALYSIS                              K                          1         -127   8 K                         1         3".
Definition b3999 : text := " 025040 CO2 WIND PRODUCT DERIVATION                                      CODE TABLE 25040           0            0   4 CODE TABLE 25040          0         2              ".
Definition b4000 : text := " 025041 MOVING PLATFORM DIRECTION REPORTING METHOD                       CODE TABLE 25041           0            0   2 CODE TABLE 25041          0         1              ".
Definition b4001 : text := " 025042 MOVING PLATFORM SPEED REPORTING METHOD                           CODE TABLE 25042           0            0   2 CODE TABLE 25042          0         1              ".
Definition b4002 : text := " 025043 WAVE SAMPLING INTERVAL (TIME)                                    S                          4            0  15 S                         4         5              ".
Definition b4003 : text := " 025044 WAVE SAMPLING INTERVAL (SPACE)                                   M                          2            0  14 M                         2         5              ".
Definition b4004 : text := " 025045 HIRS CHANNEL COMBINATION                                         FLAG TABLE 25045           0            0  21 FLAG TABLE 25045          0         7              ".
Definition b4005 : text := " 025046 MSU CHANNEL COMBINATION                                          FLAG TABLE 25046           0            0   5 FLAG TABLE 25046          0         2              ".
Definition b4006 : text := " 025047 SSU CHANNEL COMBINATION                                          FLAG TABLE 25047           0            0   4 FLAG TABLE 25047          0         2              ".
Definition b4007 : text := " 025048 AMSU-A CHANNEL COMBINATION                                       FLAG TABLE 25048           0            0  16 FLAG TABLE 25048          0         6              ".
Definition b4008 : text := " 025049 AMSU-B CHANNEL COMBINATION                                       FLAG TABLE 25049           0            0   6 FLAG TABLE 25049          0         2              ".
Definition b4009 : text := " 025051 AVHRR CHANNEL COMBINATION                                        FLAG TABLE 25051           0            0   7 FLAG TABLE 25051          0         3              ".
Definition b4010 : text := " 025052 LOG-10 OF PRINCIPAL COMPONENTS NORMALIZED FIT TO DATA            NUMERIC                    4            0  15 NUMERIC                   4         5              ".
Definition b4011 : text := " 025053 OBSERVATION QUALITY                                              FLAG TABLE 25053           0            0  12 FLAG TABLE 25053          0         4              ".
Definition b4012 : text := " 025054 SSMIS SUBFRAME ID NEMBER                                         NUMERIC                    0            0   5 NUMERIC                   0         2              ".
Definition b4013 : text := " 025055 MULTIPLEXER HOUSEKEEPING                                         K                          2            0  16 K                         2         5              ".
Definition b4014 : text := " 025060 SOFTWARE IDENTIFICATION (SEE NOTE 2)                             NUMERIC                    0            0  14 NUMERIC                   0         5              ".
Definition b4015 : text := " 025061 SOFTWARE IDENTIFICATION AND VERSION NUMBER                       CCITTIA5                   0            0  96 CHARACTER                 0        12              ".
Definition b4016 : text := " 025062 DATABASE IDENTIFICATION                                          NUMERIC                    0            0  14 NUMERIC                   0         5              ".
Definition b4017 : text := " 025065 ORIENTATION CORRECTION (AZIMUTH)                                 DEGREE                     2        -1000  11 DEGREE                    2         4              ".
Definition b4018 : text := " 025066 ORIENTATION CORRECTION (ELEVATION)                               DEGREE                     2        -1000  11 DEGREE                    2         4              ".
Definition b4019 : text := " 025067 RADIOSONDE RELEASE POINT PRESSURE CORRECTION                     PA                         0        -8000  14 PA                        0         4              ".
Definition b4020 : text := " 025068 NUMBER OF ARCHIVE RECOMPUTES                                     NUMERIC                    0            0   7 NUMERIC                   0         3              ".
Definition b4021 : text := " 025069 FLIGHT LEVEL PRESSURE CORRECTIONS                                FLAG TABLE 25069           0            0   8 FLAG TABLE 25069          0         3              ".
Definition b4022 : text := " 025070 MAJOR FRAME COUNT                                                NUMERIC                    0            0   4 NUMERIC                   0         2              ".
Definition b4023 : text := " 025071 FRAME COUNT                                                      NUMERIC                    0            0   5 NUMERIC                   0         2              ".
Definition b4024 : text := " 025075 SATELLITE ANTENNA CORRECTIONS VERSION NUMBER                     NUMERIC                    0            0   5 NUMERIC                   0         2              ".
Definition b4025 : text := " 025076 LOG-10 OF (TEMPERATURE-RADIANCE CENTRAL WAVENUMBER) FOR ATOVS    LOG (1/M)                  8            0  30 LOG (1/M)                 8        10              ".
Definition b4026 : text := " 025077 BANDWIDTH CORRECTION COEFFICIENT 1 FOR ATOVS                     NUMERIC                    5      -100000  18 NUMERIC                   5         7              ".
Definition b4027 : text := " 025078 BANDWIDTH CORRECTION COEFFICIENT 2 FOR ATOVS                     NUMERIC                    5            0  17 NUMERIC                   5         6              ".
Definition b4028 : text := " 025079 ALBEDO-RADIANCE SOLAR FILTERED IRRADIANCE FOR ATOVS              W/M**2                     4            0  24 W/M**2                    4         8              ".
Definition b4029 : text := " 025080 ALBEDO-RADIANCE EQUIVALENT FILTER WIDTH FOR ATOVS                M                         10            0  14 M                        10         5              ".
Definition b4030 : text := " 025081 INCIDENCE ANGLE                                                  DEGREE                     3            0  17 DEGREE                    3         6              ".
Definition b4031 : text := " 025082 AZIMUTH ANGLE                                                    DEGREE                     3            0  19 DEGREE                    3         6              ".
Definition b4032 : text := " 025083 FARADEY ROTATIONAL ANGLE                                         DEGREE                     3            0  19 DEGREE                    3         6              ".
Definition b4033 : text := " 025084 GEOMETRIC ROTATIONAL ANGLE                                       DEGREE                     5            0  26 DEGREE                    5         8              ".
Definition b4034 : text := " 025085 FRACTION OF CLEAR PIXELS IN HIRS FOV                             NUMERIC                    0            0   7 NUMERIC                   0         3              ".
Definition b4035 : text := " 025086 DEPTH CORRECTION INDICATOR                                       CODE TABLE 25086           0            0   2 CODE TABLE 25086          0         1              ".
Definition b4036 : text := " 025090 ORBIT STATE FLAG                                                 CODE TABLE 25090           0            0   4 CODE TABLE 25090          0         2              ".
Definition b4037 : text := " 025091 STRUCTURE CONSTANT OF THE REFRACTION INDEX (CN2)                 dB                         3       -18192  13 dB                        3         5              ".
Definition b4038 : text := " 025092 ACOUSTIC PROPAGATION VELOCITY                                    M/S                        2        28000  14 M/S                       2         5              ".
Definition b4039 : text := " 025093 RASS COMPUTATION CORRECTION                                      FLAG TABLE 25093           0            0   8 FLAG TABLE 25093          0         3              ".
Definition b4040 : text := " 025095 ALTIMETER STATE FLAG                                             FLAG TABLE 25095           0            0   2 FLAG TABLE 25095          0         1              ".
Definition b4041 : text := " 025096 RADIOMETER STATE FLAG                                            FLAG TABLE 25096           0            0   5 FLAG TABLE 25096          0         2              ".
Definition b4042 : text := " 025097 THREE DIMENSIONAL ERROR ESTIMATE OF THE NAVIGATOR ORBIT          CODE TABLE 25097           0            0   4 CODE TABLE 25097          0         2              ".
Definition b4043 : text := " 025098 ALTIMETER DATA QUALITY FLAG                                      FLAG TABLE 25098           0            0   9 FLAG TABLE 25098          0         3              ".
Definition b4044 : text := " 025099 ALTIMETER CORRECTION QUALITY                                     FLAG TABLE 25099           0            0   9 FLAG TABLE 25099          0         3              ".
Definition b4045 : text := " 025100 XBT/XCTD FALL RATE EQUATION COEFFICIENT A                        NUMERIC                    5            0  20 NUMERIC                   5         6              ".
Definition b4046 : text := " 025101 XBT/XCTD FALL RATE EQUATION COEFFICIENT B                        NUMERIC                    5      -500000  21 NUMERIC                   5         6              ".
Definition b4047 : text := " 025102 NUMBER OF MISSING LINES EXCLUDING DATA GAPS                      NUMERIC                    0            0   8 NUMERIC                   0         3              ".
Definition b4048 : text := " 025103 NUMBER OF DIRECTIONAL BINS                                       NUMERIC                    0            0   8 NUMERIC                   0         3              ".
Definition b4049 : text := " 025104 NUMBER OF WAVE-LENGTH BINS                                       NUMERIC                    0            0   8 NUMERIC                   0         3              ".
Definition b4050 : text := " 025105 FIRST DIRECTIONAL BIN                                            DEGREES                    3            0  19                                                    ".
Definition b4051 : text := " 025106 DIRECTIONAL BIN STEP                                             DEGREES                    3            0  19                                                    ".
Definition b4052 : text := " 025107 FIRST WAVE-LENGTH BIN                                            M                          3            0  29 M                         3         9              ".
Definition b4053 : text := " 025108 LAST WAVE-LENGTH BIN                                             M                          3            0  29 M                         3         9              ".
Definition b4054 : text := " 025110 IMAGE PROCESSING SUMMARY                                         FLAG TABLE 25110           0            0  10                                                    ".
Definition b4055 : text := " 025111 NUMBER OF INPUT DATA GAPS                                        NUMERIC                    0            0   8 NUMERIC                   0         3              ".
Definition b4056 : text := " 025120 RA2-L2-PROCESSING FLAG                                           CODE TABLE 25120           0            0   2 CODE TABLE 25120          0         1              ".
Definition b4057 : text := " 025121 RA2-L2-PROCESSING QUALITY                                        %                          0            0   7 %                         0         3              ".
Definition b4058 : text := " 025122 HARDWARE CONFIGURATION FOR RF                                    CODE TABLE 25122           0            0   2 CODE TABLE 25122          0         1              ".
Definition b4059 : text := " 025123 HARDWARE CONFIGURATION FOR HPA                                   CODE TABLE 25123           0            0   2 CODE TABLE 25123          0         1              ".
Definition b4060 : text := " 025124 MWR L2 PROCESSING FLAG                                           CODE TABLE 25124           0            0   2 CODE TABLE 25124          0         1              ".
Definition b4061 : text := " 025125 MWR L2-PROCESSING QUALITY                                        %                          0            0   7 %                         0         3              ".
Definition b4062 : text := " 025126 MODEL DRY TROPOSPHERIC CORRECTION                                M                          3       -32768  16 M                         3         5              ".
Definition b4063 : text := " 025127 INVERTED BAROMETER CORRECTION                                    M                          3       -32768  16 M                         3         5              ".
Definition b4064 : text := " 025128 MODEL WET TROPOSPHERIC CORRECTION                                M                          3       -32768  16 M                         3         5              ".
Definition b4065 : text := " 025129 MWR DERIVED WET TROPOSPHERIC CORRECTION                          M                          3       -32768  16 M                         3         5              ".
Definition b4066 : text := " 025130 RA2 IONOSPHERIC CORRECTION ON KU BAND                            M                          3       -32768  16 M                         3         5              ".
Definition b4067 : text := " 025131 IONOSPHERIC CORRECTION FROM DORIS ON KU BAND                     M                          3       -32768  16 M                         3         5              ".
Definition b4068 : text := " 025132 IONOSPHERIC CORRECTION FROM MODEL ON KU BAND                     M                          3       -32768  16 M                         3         5              ".
Definition b4069 : text := " 025133 SEA STATE BIAS CORRECTION ON KU BAND                             M                          3       -32768  16 M                         3         5              ".
Definition b4070 : text := " 025134 RA2 IONOSPHERIC CORRECTION ON S BAND                             M                          3       -32768  16 M                         3         5              ".
Definition b4071 : text := " 025135 IONOSPHERIC CORRECTION FROM DORIS ON S BAND                      M                          3       -32768  16 M                         3         5              ".
Definition b4072 : text := " 025136 IONOSPHERIC CORRECTION FROM MODEL ON S BAND                      M                          3       -32768  16 M                         3         5              ".
Definition b4073 : text := " 025137 SEA STATE BIAS CORRECTION ON S BAND                              M                          3       -32768  16 M                         3         5              ".
Definition b4074 : text := " 025138 AVERAGE SIGNAL TO NOISE RATION                                   NUMERIC                    0        -2048  12 NUMERIC                   0         4              ".
Definition b4075 : text := " 025140 START CHANNEL                                                    NUMERIC                    0            0  14 NUMERIC                   0         5              ".
Definition b4076 : text := " 025141 END CHANNEL                                                      NUMERIC                    0            0  14 NUMERIC                   0         5              ".
Definition b4077 : text := " 025142 CHANNEL SCALE FACTOR                                             NUMERIC                    0            0   6 NUMERIC                   0         2              ".
Definition b4078 : text := " 025143 LINEAR COEFFICIENT                                               NUMERIC                    6     -5000000  24 NUMERIC                   6         8              ".
Definition b4079 : text := " 025150 SATELLITE INTENSITY ANALYSIS METHOD OF TROPICAL CYCLONE          CODE TABLE 25150           0            0   4 CODE TABLE 25150          2         2              ".
Definition b4080 : text := " 025160 KU BAND INSTRUMENTAL CORRECTION                                  M                          4      -120000  18                                                    ".
Definition b4081 : text := " 025161 C BAND INSTRUMENTAL CORRECTION                                   M                          4      -120000  18                                                    ".
Definition b4082 : text := " 025162 SEA STATE BIAS CORRECTION ON C BAND                              M                          4        -6000  13                                                    ".
Definition b4083 : text := " 025163 ALTIMETER IONOSPHERIC CORRECTION ON KU BAND                      M                          3       -32768  16                                                    ".
Definition b4084 : text := " 025164 RADIOMETER WET                                                   M                          4        -5000  13                                                    ".
Definition b4085 : text := " 025174 SMOS INFORMATION FLAG                                            FLAG TABLE 25174           0            0  14 FLAG TABLE 25174          0         5              ".
Definition b4086 : text := " 025193 ATTENUATION CORRECTION ON SIGMA0                                 dB                         3            0  14                                                    ".
Definition b4087 : text := " 025194 MAJOR FRAME COUNT                                                NUMERIC                    0            0   4                                                    ".
Definition b4088 : text := " 025197 ANTENNA CORRECTIONS VERSION NUMBER                               NUMERIC                    0            0   5                                                    ".
Definition b4089 : text := " 025198 LOG (TEMP-RAD CENTRAL WAVE NUMBER)                               1/M                        8            0  30                                                    ".
Definition b4090 : text := " 025199 BANDWIDTH CORRECTION COEFFICIENT 1                               NUMERIC                    4       -10000  15                                                    ".
Definition b4091 : text := " 025200 BANDWIDTH CORRECTION COEFFICIENT 2                               NUMERIC                    5            0  17                                                    ".
Definition b4092 : text := " 025201 ALBEDO-RAD SOLAR FILTERED IRRADIANCE                             NUMERIC                    4            0  24                                                    ".
Definition b4093 : text := " 025202 ALBEDO-RAD EQUIVALENT FILTER WIDTH                               NUMERIC                   10            0  14                                                    ".
Definition b4094 : text := " 025203 SCAN LINE STATUS FLAGS FOR ATOVS                                 FLAG TABLE 25203           0            0  31                                                    ".
Definition b4095 : text := " 025204 SCAN LINE QUALITY FLAGS FOR ATOVS                                FLAG TABLE 25204           0            0  31                                                    ".
Definition b4096 : text := " 025205 CHANNEL QUALITY FLAGS FOR ATOVS                                  FLAG TABLE 25205           0            0  31                                                    ".
Definition b4097 : text := " 025206 FOV QUALITY FLAGS FOR ATOVS                                      FLAG TABLE 25206           0            0  31                                                    ".
Definition b4098 : text := " 025207 COMPASS AZIMUTH ANGLE                                            DEGREE                     2            0  16                                                    ".
Definition b4099 : text := " 026001 PRINCIPAL TIME OF DAILY READING IN UTC OF MAXIMUM TEMPERATURE    HOUR                       1            0  12 HOUR                      1         3              ".
Definition b4100 : text := " 026002 PRINCIPAL TIME OF DAILY READING IN UTC OF MINIMUM TEMPERATURE    HOUR                       1            0  12 HOUR                      1         3              ".
Definition b4101 : text := " 026003 TIME DIFFERENCE                                                  MINUTE                     0        -1440  12 MINUTE                    0         4              ".
Definition b4102 : text := " 026010 HOURS INCLUDED                                                   FLAG TABLE 26010           0            0  26 FLAG TABLE 26010          0         9              ".
Definition b4103 : text := " 026020 DURATION OF PRECIPITATION                                        MINUTE                     0            0  11 MINUTE                    0         4              ".
Definition b4104 : text := " 026030 MEASUREMENT INTEGRATION TIME                                     SECOND                     2            0   8 SECOND                    2         3".
Definition b4105 : text := " 026193 YEAR                                                             YEAR                       0            0  12                                                    ".
Definition b4106 : text := " 026194 MONTH                                                            MONTH                      0            0   4                                                    ".
Definition b4107 : text := " 026195 DAY                                                              DAY                        0            0   6                                                    ".
Definition b4108 : text := " 026196 HOUR                                                             HOUR                       0            0   5                                                    ".
Definition b4109 : text := " 026197 MINUTE                                                           MINUTE                     0            0   6                                                    ".
Definition b4110 : text := " 026198 SECOND                                                           SECOND                     0            0   6                                                    ".
Definition b4111 : text := " 026200 LOCATION WITHIN ASSIMILATION WINDOW IN TIME                      NUMERIC                    6            0  20                                                    ".
Definition b4112 : text := " 026201 HOURS INCLUDED                                                   FLAG TABLE 26201           0            0  26                                                    ".
Definition b4113 : text := " 027001 LATITUDE (HIGH ACCURACY)                                         DEGREE                     5     -9000000  25 DEGREE                    5         7              ".
Definition b4114 : text := " 027002 LATITUDE (COARSE ACCURACY)                                       DEGREE                     2        -9000  15 DEGREE                    2         4              ".
Definition b4115 : text := " 027003 ALTERNATE LATITUDE (COARSE ACCURACY)                             DEGREE                     2        -9000  15 DEGREE                    2         4              ".
Definition b4116 : text := " 027004 ALTERNATE LATITUDE (HIGH ACCURACY)                               DEGREE                     5     -9000000  25 DEGREE                    5         7              ".
Definition b4117 : text := " 027010 FOOTPRINT AXIS 1                                                 M                         -1            0  14 M                        -1         5              ".
Definition b4118 : text := " 027020 SATELLITE LOCATION COUNTER                                       NUMERIC                    0            0  16 NUMERIC                   0         5              ".
Definition b4119 : text := " 027021 SATELLITE SUBLOCATION DIMENSION                                  NUMERIC                    0            0  16 NUMERIC                   0         5              ".
Definition b4120 : text := " 027031 IN DIRECTION OF 0 DEGREES LONGITUDE, DISTANCE FROM THE EARTH'S C M                          2  -1073741824  31 M                         2        10              ".
Definition b4121 : text := " 027080 VIEWING AZIMUTH ANGLE                                            DEGREE TRUE                2            0  16 DEGREE TRUE               0         5              ".
Definition b4122 : text := " 027193 SOLAR AZIMUTH                                                    DEGREE TRUE                2            0  16                                                    ".
Definition b4123 : text := " 028001 LONGITUDE (HIGH ACCURACY)                                        DEGREE                     5    -18000000  26 DEGREE                    5         8              ".
Definition b4124 : text := " 028002 LONGITUDE (COARSE ACCURACY)                                      DEGREE                     2       -18000  16 DEGREE                    2         5              ".
Definition b4125 : text := " 028003 ALTERNATE LONGITUDE (COARSE ACCURACY)                            DEGREE                     2       -18000  16 DEGREE                    2         5              ".
Definition b4126 : text := " 028004 ALTERNATE LONGITUDE (HIGH ACCURACY)                              DEGREE                     5    -18000000  26 DEGREE                    5         8              ".
Definition b4127 : text := " 028010 FOOTPRINT AXIS 2                                                 M                         -1            0  14 M                        -1         5              ".
Definition b4128 : text := " 028031 IN DIRECTION 90 DEGREES EAST, DISTANCE FROM THE EARTH'S CENTRE   M                          2  -1073741824  31 M                         2        10              ".
Definition b4129 : text := " 029001 PROJECTION TYPE                                                  CODE TABLE 29001           0            0   3 CODE TABLE 29001          0         1              ".
Definition b4130 : text := " 029002 CO-ORDINATE GRID TYPE                                            CODE TABLE 29002           0            0   3 CODE TABLE 29002          0         1              ".
Definition b4131 : text := " 030001 PIXEL VALUE (4 BITS)                                             NUMERIC                    0            0   4 NUMERIC                   0         2              ".
Definition b4132 : text := " 030002 PIXEL VALUE (8 BITS)                                             NUMERIC                    0            0   8 NUMERIC                   0         3              ".
Definition b4133 : text := " 030004 PIXEL VALUE (16 BITS)                                            NUMERIC                    0            0  16 NUMERIC                   0         5              ".
Definition b4134 : text := " 030010 NUMBER OF GRID POINTS                                            NUMERIC                    0            0  13 NUMERIC                   0         4              ".
Definition b4135 : text := " 030021 NUMBER OF PIXELS PER ROW                                         NUMERIC                    0            0  12 NUMERIC                   0         4              ".
Definition b4136 : text := " 030022 NUMBER OF PIXELS PER COLUMN                                      NUMERIC                    0            0  12 NUMERIC                   0         4              ".
Definition b4137 : text := " 030031 PICTURE TYPE                                                     CODE TABLE 30031           0            0   4 CODE TABLE 30031          0         2              ".
Definition b4138 : text := " 030032 COMBINATION WITH OTHER DATA                                      FLAG TABLE 30032           0            0  16 FLAG TABLE 30032          0         6              ".
Definition b4139 : text := " 030193 POSITION NUMBER ALONG SCAN                                       NUMERIC                    0            0   8                                                    ".
Definition b4140 : text := " 031000 SHORT DELAYED DESCRIPTOR REPLICATION FACTOR                      NUMERIC                    0            0   1 NUMERIC                   0         1              ".
Definition b4141 : text := " 031001 DELAYED DESCRIPTOR REPLICATION FACTOR                            NUMERIC                    0            0   8 NUMERIC                   0         3              ".
Definition b4142 : text := " 031002 EXTENDED DELAYED DESCRIPTOR REPLICATION FACTOR                   NUMERIC                    0            0  16 NUMERIC                   0         5              ".
Definition b4143 : text := " 031011 DELAYED DESCRIPTOR AND DATA REPETITION FACTOR                    NUMERIC                    0            0   8 NUMERIC                   0         3              ".
Definition b4144 : text := " 031012 EXTENDED DELAYED DESCRIPTOR AND DATA REPETITION FACTOR           NUMERIC                    0            0  16 NUMERIC                   0         5              ".
Definition b4145 : text := " 031021 ASSOCIATED FIELD SIGNIFICANCE                                    CODE TABLE 31021           0            0   6 CODE TABLE 31021          0         2              ".
Definition b4146 : text := " 031031 DATA PRESENT INDICATOR                                           FLAG TABLE 31031           0            0   1 FLAG TABLE 31031          0         1              ".
Definition b4147 : text := " 031192 DATA PRESENT INDICATOR                                           NUMERIC                    0            0   1                                                    ".
Definition b4148 : text := " 033002 QUALITY INFORMATION                                              CODE TABLE 33002           0            0   2 CODE TABLE 33002          0         1              ".
Definition b4149 : text := " 033003 QUALITY INFORMATION                                              CODE TABLE 33003           0            0   3 CODE TABLE 33003          0         1              ".
Definition b4150 : text := " 033005 QUALITY INFORMATION (AWS DATA)                                   FLAG TABLE 33005           0            0  30 FLAG TABLE 33005          0        10              ".
Definition b4151 : text := " 033006 INTERNAL MEASUREMENT STATUS INFORMATION (AWS)                    CODE TABLE 33006           0            0   3 CODE TABLE 33006          0         1              ".
Definition b4152 : text := " 033007 PER CENT CONFIDENCE                                              %                          0            0   7 %                         0         3              ".
Definition b4153 : text := " 033009 RELATIVE ERROR                                                   %                          6            0  20 %                         0         7              ".
Definition b4154 : text := " 033015 DATA QUALITY CHECK INDICATOR                                     CODE TABLE 33015           0            0   6 CODE TABLE 33015          0         2              ".
Definition b4155 : text := " 033020 QUALITY CONTROL INDICATION OF FOLLOWING VALUE                    CODE TABLE 33020           0            0   3 CODE TABLE 33020          0         1              ".
Definition b4156 : text := " 033021 QUALITY OF FOLLOWING VALUE                                       CODE TABLE 33021           0            0   2 CODE TABLE 33021          0         1              ".
Definition b4157 : text := " 033022 QUALITY OF BUOY SATELLITE TRANSMISSION                           CODE TABLE 33022           0            0   2 CODE TABLE 33022          0         1              ".
Definition b4158 : text := " 033023 QUALITY OF BUOY LOCATION                                         CODE TABLE 33023           0            0   2 CODE TABLE 33023          0         1              ".
Definition b4159 : text := " 033024 STATION ELEVATION QUALITY MARK (FOR MOBILE STATIONS)             CODE TABLE 33024           0            0   4 CODE TABLE 33024          0         2              ".
Definition b4160 : text := " 033025 ACARS INTERPOLATED VALUES                                        CODE TABLE 33025           0            0   3 CODE TABLE 33025          0         1              ".
Definition b4161 : text := " 033026 MOISTURE QUALITY                                                 CODE TABLE 33026           0            0   6 CODE TABLE 33026          0         2              ".
Definition b4162 : text := " 033027 LOCATION QUALITY CLASS (RANGE OF RADIUS OF 66 % CONFIDENCE)      CODE TABLE 33027           0            0   3 CODE TABLE 33027          0         1              ".
Definition b4163 : text := " 033028 SNAPSHOT OVERALL QUALITY                                         CODE TABLE 22028           0            0   3 CODE TABLE 22028          0         1              ".
Definition b4164 : text := " 033030 SCAN LINE STATUS FLAGS FOR ATOVS                                 FLAG TABLE 33030           0            0  24 FLAG TABLE 33030          0         8              ".
Definition b4165 : text := " 033031 SCAN LINE QUALITY FLAGS FOR ATOVS                                FLAG TABLE 33031           0            0  24 FLAG TABLE 33031          0         8              ".
Definition b4166 : text := " 033032 CHANNEL QUALITY FLAGS FOR ATOVS                                  FLAG TABLE 33032           0            0  24 FLAG TABLE 33032          0         8              ".
Definition b4167 : text := " 033033 FIELD OF VIEW QUALITY FLAGS FOR ATOVS                            FLAG TABLE 33033           0            0  24 FLAG TABLE 33033          0         8              ".
Definition b4168 : text := " 033035 MANUAL/AUTOMATIC QUALITY CONTROL                                 CODE TABLE 33035           0            0   4 CODE TABLE 33035          0         2              ".
Definition b4169 : text := " 033036 NOMINAL CONFIDENCE THRESHOLD                                     %                          0            0   7 %                         0         3              ".
Definition b4170 : text := " 033037 WIND CORRELATION ERROR                                           FLAG TABLE 33037           0            0  20 FLAG TABLE 33037          0         7              ".
Definition b4171 : text := " 033038 QUALITY FLAGS FOR GROUND-BASED GNSS DATA                         FLAG TABLE 33038           0            0  10 FLAG TABLE 33038          0         4              ".
Definition b4172 : text := " 033039 QUALITY FLAGS FOR RADIO OCCULTATION DATA                         FLAG TABLE 33039           0            0  16 FLAG TABLE 33039          0         6              ".
Definition b4173 : text := " 033040 CONFIDENCE INTERVAL                                              %                          0            0   7 PERCENT                   0         3              ".
Definition b4174 : text := " 033041 ATTRIBUTE OF FOLLOWING VALUE                                     CODE TABLE 33041           0            0   2 CODE TABLE 33041          0         1              ".
Definition b4175 : text := " 033042 TYPE OF LIMIT REPRESENTED BY FOLLOWING VALUE                     CODE TABLE 33042           0            0   3 CODE TABLE 33042          0         1              ".
Definition b4176 : text := " 033043 AST CONFIDENCE                                                   FLAG TABLE 33043           0            0   8 FLAG TABLE 33043          0         3              ".
Definition b4177 : text := " 033044 ASAR QUALITY INFORMATION                                         FLAG TABLE 33044           0            0  15 FLAG TABLE 33044          0         5              ".
Definition b4178 : text := " 033045 PROBABILITY OF FOLLOWING EVENT                                   %                          0            0   7 %                         0         3              ".
Definition b4179 : text := " 033046 CONDITIONAL PROBABILITY OF FOLLOWING EVENT WITH RESPECT TO SPECI %                          0            0   7 %                         0         3              ".
Definition b4180 : text := " 033047 MEASUREMENT CONFIDENCE DATA                                      FLAG TABLE 33047           0            0  31 FLAG TABLE 33047          0        11              ".
Definition b4181 : text := " 033048 CONFIDENCE MEASURE OF SAR INVERSION                              CODE TABLE 33048           0            0   2 CODE TABLE 33048          0         1              ".
Definition b4182 : text := " 033049 CONFIDENCE MEASURE OF WIND RETRIEVAL                             CODE TABLE 33049           0            0   2 CODE TABLE 33049          0         1              ".
Definition b4183 : text := " 033050 GLOBAL GTSPP QUALITY FLAG                                        CODE TABLE 33050           0            0   4 CODE TABLE 33050          0         2              ".
Definition b4184 : text := " 033052 S BAND OCEAN RETRACKING QUALITY                                  FLAG TABLE 33052           0            0  21 FLAG TABLE 33052          0         7              ".
Definition b4185 : text := " 033053 KU BAND OCEAN RETRACKING QUALITY                                 FLAG TABLE 33053           0            0  21 FLAG TABLE 33053          0         7              ".
Definition b4186 : text := " 033060 GQISFLAGQUAL-INDIVIDUAL IASI-SYSTEM QUALITY FLAG                 CODE TABLE 33060           0            0   2 CODE TABLE 33060          0         1              ".
Definition b4187 : text := " 033061 GQISQUALINDEX - INDICATOR FOR INSTRUMENT NOISE PERFORMANCE       %                          0            0   7 %                         0         3              ".
Definition b4188 : text := " 033062 GQISQUALINDEXLOC - INDICATOR FOR GEOMETRIC QUALITY INDEX         %                          0            0   7 %                         0         3              ".
Definition b4189 : text := " 033063 GQISQUALINDEXRAD - INDICATOR FOR INSTRUMENT NOISE PERFORMANCE    %                          0            0   7 %                         0         3              ".
Definition b4190 : text := " 033064 GQISQUALINDEXSPECT - INDICATOR FOR INSTRUMENT NOISE PERFORMANCE  %                          0            0   7 %                         0         3              ".
Definition b4191 : text := " 033065 GQISSYSTECSONDQUAL - OUTPUT OF SYSTEM TEC QUALITY FUNCTION       NUMERIC                    0            0  24 NUMERIC                   0        24              ".
Definition b4192 : text := " 033066 SBUV TOTAL OZONE QUALITY                                         CODE TABLE 33066           0            0   4 CODE TABLE 33066          0         2              ".
Definition b4193 : text := " 033067 SBUV PROFILE OZONE QUALITY                                       CODE TABLE 33067           0            0   4 CODE TABLE 33067          0         2              ".
Definition b4194 : text := " 033070 TOTAL OZONE QUALITY                                              CODE TABLE 33070           0            0   4 CODE TABLE 33070          0         2              ".
Definition b4195 : text := " 033071 PROFILE OZONE QUALITY                                            CODE TABLE 33071           0            0   4 CODE TABLE 33071          0         2              ".
Definition b4196 : text := " 033072 OZONE ERROR                                                      CODE TABLE 33072           0            0   5 CODE TABLE 33072          0         2".
Definition b4197 : text := " 033075 SCAN LEVEL QUALITY FLAG                                          FLAG TABLE 33075           0            0  13 FLAG TABLE 33075          0         5              ".
Definition b4198 : text := " 033076 CALIBRATION QUALITY FLAG                                         FLAG TABLE 33076           0            0   9 FLAG TABLE 33076          0         3              ".
Definition b4199 : text := " 033077 FIELD OF VIEW QUALITY FLAG                                       FLAG TABLE 33077           0            0  19 FLAG TABLE 33077          0         7              ".
Definition b4200 : text := " 033078 GEOLOCATION QUALITY                                              CODE TABLE 33078           0            0   4 CODE TABLE 33078          0         2              ".
Definition b4201 : text := " 035000 FM AND REGIONAL CODE NUMBER                                      CODE TABLE 35000           0            0  10 CODE TABLE 35000          0         3              ".
Definition b4202 : text := " 035001 TIME-FRAME FOR MONITORING                                        CODE TABLE 35001           0            0   3 CODE TABLE 35001          0         1              ".
Definition b4203 : text := " 035011 NUMBER OF REPORTS ACTUALLY RECEIVED                              NUMERIC                    0            0  14 NUMERIC                   0         4              ".
Definition b4204 : text := " 035021 BULLETIN BEING MONITORED (TTAAII)                                CCITTIA5                   0            0  48 CHARACTER                 0         6              ".
Definition b4205 : text := " 035022 BULLETIN BEING MONITORED (YYGGGG)                                CCITTIA5                   0            0  48 CHARACTER                 0         6              ".
Definition b4206 : text := " 035023 BULLETIN BEING MONITORED (CCCC)                                  CCITTIA5                   0            0  32 CHARACTER                 0         4              ".
Definition b4207 : text := " 035024 BULLETIN BEING MONITORED (BBB)                                   CCITTIA5                   0            0  24 CHARACTER                 0         3              ".
Definition b4208 : text := " 035030 DISCREPANCIES IN THE AVAILABILITY OF EXPECTED DATA               CODE TABLE 35030           0            0   4 CODE TABLE 35030          0         1              ".
Definition b4209 : text := " 035031 QUALIFIER ON MONITORING RESULTS                                  CODE TABLE 35031           0            0   7 CODE TABLE 35031          0         2              ".
Definition b4210 : text := " 035032 CAUSE OF MISSING DATA                                            CODE TABLE 35032           0            0   4 CODE TABLE 35032          0         1              ".
Definition b4211 : text := " 035033 OBSERVATION AND COLLECTION DEFICIENCIES                          CODE TABLE 35033           0            0   7 CODE TABLE 35033          0         2              ".
Definition b4212 : text := " 035034 STATISTICAL TRENDS FOR AVAILABILITY OF DATA (DURING THE SURVEY P CODE TABLE 35034           0            0   3 CODE TABLE 35034          0         1              ".
Definition b4213 : text := " 035035 REASON FOR TERMINATION                                           CODE TABLE 35035           0            0   5 CODE TABLE 35035          0         2              ".
Definition b4214 : text := " 040001 SURFACE SOIL MOISTURE (MS)                                       %                          1            0  10 %                         1         4              ".
Definition b4215 : text := " 040002 ESTIMATED ERROR IN SURFACE SOIL MOISTURE                         %                          1            0  10 %                         1         4              ".
Definition b4216 : text := " 040003 MEAN SURFACE SOIL MOISTURE                                       NUMERIC                    3            0  10 NUMERIC                   3         4              ".
Definition b4217 : text := " 040004 RAIN FALL DETECTION                                              NUMERIC                    3            0  10 NUMERIC                   3         4              ".
Definition b4218 : text := " 040005 SOIL MOISTURE CORRECTION FLAG                                    FLAG TABLE 40005           0            0   8 FLAG FLAG TABLE 40005     0         3              ".
Definition b4219 : text := " 040006 SOIL MOISTURE PROCESSING FLAG                                    FLAG TABLE 40006           0            0  16 FLAG FLAG TABLE 40006     0         5              ".
Definition b4220 : text := " 040007 SOIL MOISTURE QUALITY                                            %                          1            0  10 %                         1         4              ".
Definition b4221 : text := " 040008 FROZEN LAND SURFACE FRACTION                                     %                          1            0  10 %                         1         4              ".
Definition b4222 : text := " 040009 INUNDATION AND WETLAND FRACTION                                  %                          1            0  10 %                         1         4              ".
Definition b4223 : text := " 040010 TOPOGRAPHIC COMPLEXITY                                           %                          1            0  10 %                         1         4              ".
Definition b4224 : text := " 040011 INTERPOLATION FLAG                                               FLAG TABLE 40011           0            0   8 FLAG TABLE 40011          0         3              ".
Definition b4225 : text := " 040012 RADIOMETER DATA QUALITY FLAG                                     FLAG TABLE 40012           0            0   8 FLAG TABLE 40012          0         3              ".
Definition b4226 : text := " 040013 RADIOMETER BRIGHTNESS TEMPERATURE INTERPOLATION FLAG             CODE TABLE 40013           0            0   3                                                    ".
Definition b4227 : text := " 040014 HIGH FREQUENCY FLUCTUATIONS OF THE SEA SURFACE TOPOGRAPHY CORRECTM                          4        -3000  13                                                    ".
Definition b4228 : text := " 040015 QUANTIZATION FACTOR                                              NUMERIC                    2            0  16".
Definition b4229 : text := " 040016 RESIDUAL RMS IN BAND                                             NUMERIC                    3            0  14".
Definition b4230 : text := " 040017 NON-NORMALISED PRINCIPAL COMPONENT SCORE                         NUMERIC                    0  -1073741824  31".
Definition b4231 : text := " 040018 GLACAVGIMAGIIS - AVERAGE OF IMAGER MEASUREMENTS                  (W/M**2)*(1/SR)*M          6            0  24".
Definition b4232 : text := " 040019 GLACVARIMAGIIS - VARIANCE OF IMAGER MEASUREMENTS                 (W/M**2)*(1/SR)*M          6            0  24".
Definition b4233 : text := " 040020 GQISFLAGQUALDETAILED - QUALITY FLAG FOR THE SYSTEM               FLAG TABLE 40020           0            0  17".
Definition b4234 : text := " 040021 FRACTION OF WEIGHTED AVHRR PIXEL IN IASI FOV COVERED WITH ICE    %                          0            0   7".
Definition b4235 : text := " 040022 NUMBER OF MISSING, BAD OR FAILED AVHRR PIXELS                    NUMERIC                    0            0   7".
Definition b4236 : text := " 040193 INSTRUMENT DETECTING CLOUDS                                      FLAG TABLE 40193           0            0  16                                                    ".
Definition b4237 : text := " 040194 VALIDATION FLAG FOR IASI LEVEL 1 PRODUCT                         FLAG TABLE 40194           0            0  16                                                    ".
Definition b4238 : text := " 040195 QUALITY AND COMPLETENESS OF RETRIEVAL                            CODE TABLE 40195           0            0   4                                                    ".
Definition b4239 : text := " 040196 RETRIEVAL CHOICE INDICATOR                                       FLAG TABLE 40196           0            0   8                                                    ".
Definition b4240 : text := " 040197 SATELLITE MANOEUVRE INDICATOR                                    CODE TABLE 40197           0            0   3                                                    ".
Definition b4241 : text := " 040198 SELECTION OF BACKGROUND STATE                                    CODE TABLE 40198           0            0   3                                                    ".
Definition b4242 : text := " 040199 INTEGRATED N2O DENSITY                                           KG/M**2                    6            0  16                                                    ".
Definition b4243 : text := " 040200 INTEGRATED CO DENSITY                                            KG/M**2                    7            0  16                                                    ".
Definition b4244 : text := " 040201 INTEGRATED CH4 DENSITY                                           KG/M**2                    6            0  16                                                    ".
Definition b4245 : text := " 040202 INTEGRATED CO2 DENSITY                                           KG/M**2                    3            0  16                                                    ".
Definition b4246 : text := " 040203 COLD/WARM LOAD FLAG                                              FLAG TABLE 40203           0            0  12                                                    ".
Definition b4247 : text := " 049193 SAR INVERSION QC FLAGS                                           FLAG TABLE 49193           0            0  15                                                    ".
Definition b4248 : text := " 049194 ALTIMETER WAVE HEIGHT QC FLAFS                                   FLAG TABLE 49194           0            0  15                                                    ".
Definition b4249 : text := " 000001 TABLE A: ENTRY                                                   CCITTIA5                   0            0  24 CHARACTER                 0         3".
Definition b4250 : text := " 000002 TABLE A: DATA CATEGORY DESCRIPTION, LINE 1                       CCITTIA5                   0            0 256 CHARACTER                 0        32".
Definition b4251 : text := " 000003 TABLE A: DATA CATEGORY DESCRIPTION, LINE 2                       CCITTIA5                   0            0 256 CHARACTER                 0        32".
Definition b4252 : text := " 000024 CODE FIGURE                                                      CCITTIA5                   0            0  64 CHARACTER                 0         8".
Definition b4253 : text := " 000025 CODE FIGURE MEANING                                              CCITTIA5                   0            0 496 CHARACTER                 0        62".
Definition b4254 : text := " 000026 BIT NUMBER                                                       CCITTIA5                   0            0  16 CHARACTER                 0         2".
Definition b4255 : text := " 000027 BIT NUMBER MEANING                                               CCITTIA5                   0            0 496 CHARACTER                 0        62".
Definition b4256 : text := " 001024 WIND SPEED SOURCE                                                CODE TABLE 1024            0            0   5 ".
Definition b4257 : text := " 001030 NUMERICAL MODEL IDENTIFIER                                       CCITTIA5                   0            0 128 CHARACTER                 0        16".
Definition b4258 : text := " 001037 SIGMET SEQUENCE IDENTIFIER                                       CCITTIA5                   0            0  24 CHARACTER                 0         3".
Definition b4259 : text := " 001052 PLATFORM TRANSMITTER ID                                          CODE TABLE 1052            0            0   3 CODE TABLE 1052           0         1".
Definition b4260 : text := " 001053 TSUNAMETER REPORT SEQUENCE NUMBER TRIGGERED BY A TSUNAMI EVENT   NUMERIC                    0            0   7 NUMERIC                   0         2".
Definition b4261 : text := " 001065 ICAO REGION IDENTIFIER                                           CCITTIA5                   0            0 256 CHARACTER                 0        32".
Definition b4262 : text := " 001097 STAR CATALOGUE NUMBER                                            NUMERIC                    0            0  13 NUMERIC                   0         4".
Definition b4263 : text := " 001098 TYPE OF PRODUCT                                                  CODE TABLE 1098            0            0  12 CODE TABLE 1098           0         4".
Definition b4264 : text := " 001099 UNIQUE PRODUCT DEFINITION                                        CCITTIA5                   0            0 204 CCITTIA5                  0       256".
Definition b4265 : text := " 001103 IMO NUMBER. UNIQUE LLOYD'S REGISTRY                              NUMERIC                    0            0  14 NUMERIC                   0         5".
Definition b4266 : text := " 001110 AIRCRAFT TAIL NUMBER                                             CCITTIA5                   0            0  48 CCITTIA5                  0         6".
Definition b4267 : text := " 001111 ORIGINATION AIRPORT                                              CCITTIA5                   0            0  24 CCITTIA5                  0         3".
Definition b4268 : text := " 001112 DESTINATION AIRPORT                                              CCITTIA5                   0            0  24 CCITTIA5                  0         3".
Definition b4269 : text := " 001113 TEMPLATE VERSION NUMBER DEFINED BY ORIGINATING CENTRE            NUMERIC                    1            0   9 NUMERIC                   1         3".
Definition b4270 : text := " 001124 GRID POINT IDENTIFIER                                            NUMERIC                    0            0  24 NUMERIC                   0         8".
Definition b4271 : text := " 001144 SNAPSHOT IDENTIFIER                                              NUMERIC                    0            0  31 NUMERIC                   0        10".
Definition b4272 : text := " 001192 MODEL VERSION NUMBER                                             CODE TABLE 1192            0            0   8 ".
Definition b4273 : text := " 001211 ORIGIN OF SEA SURFACE ANALYSIS                                   CCITTIA5                   0            0 160 CHARACTER                 0        20".
Definition b4274 : text := " 001220 RADAR COMPOSITE NAME                                             CCITTIA5                   0            0 160 CHARACTER                 0        20".
Definition b4275 : text := " 002007 TYPE OF SENSOR FOR WATER LEVELE MEASUREMENTS                     CODE TABLE 2007            0            0   4 CODE TABLE 2007           0         2".
Definition b4276 : text := " 002047 DEEP OCEAN TSUNAMI TYPE                                          CODE TABLE 2007            0            0   7 CODE TABLE 2007           0         2".
Definition b4277 : text := " 002071 SPECTROGRAPHIC WAVELENGTH                                        M                         13            0  30 M                        13        10".
Definition b4278 : text := " 002072 SPECTROGRAPHIC WIDTH                                             M                         13            0  30 M                        13        10".
Definition b4279 : text := " 002098 TYPE OF WAVE SENSOR                                              CODE TABLE 2098            0            0   4 CODE TABLE 0              0         2".
Definition b4280 : text := " 002099 POLARISATION                                                     CODE TABLE 2099            0            0   3 CODE TABLE 2099           0         1".
Definition b4281 : text := " 002137 RADAR DUAL PRF RATIO                                             CODE TABLE 2137            0            0   4 CODE TABLE 2137           0         2".
Definition b4282 : text := " 002138 ANTENNA ROTATION DIRECTION                                       CODE TABLE 2138            0            0   2 CODE TABLE 2138           0         1".
Definition b4283 : text := " 002147 METHOD OF TRANSMISSION TO COLLECTION CENTRE                      CODE TABLE 2147            0            0   7 CODE TABLE 2147           0         2".
Definition b4284 : text := " 002155 SATELLITE CHANNEL WAVELENGTH                                     M                          9            0  16 M                         9         5".
Definition b4285 : text := " 002165 RADIANCE TYPE FLAG                                               FLAG TABLE 2165            0            0  15 FLAG TABLE 2165           0         5".
Definition b4286 : text := " 002171 INSTRUMENT SERIAL NUMBER FOR WATER TEMPERATURE PROFILE           CCITTIA5                   0            0  64 CCITTIA5                  0         8".
Definition b4287 : text := " 002173 SQUARE OF THE OFF NADIR ANGLE (7)                                DEGREE**2                  4            0  10 DEGREE**2                 4         4".
Definition b4288 : text := " 002191 GEOPOTENTIAL HEIGHT CALCULATION                                  CODE TABLE 2191            0            0   4 CODE TABLE 0              0         2".
Definition b4289 : text := " 002192 SAR AZIMUTH ANGLE                                                DEGREE                     0            0   9 ".
Definition b4290 : text := " 002201 LONGITUDINAL RESOLUTION                                          DEGREE                     5            0  25 ".
Definition b4291 : text := " 002205 LATITUDINAL RESOLUTION                                           DEGREE                     3            0   9 ".
Definition b4292 : text := " 002206 LONGITUDINAL RESOLUTION                                          DEGREE                     3            0   9 ".
Definition b4293 : text := " 002207 TYPE OF SCAN                                                     CODE TABLE 2207            0            0   3 ".
Definition b4294 : text := " 004006 SECOND                                                           S                          0            0   6 S                         0         2".
Definition b4295 : text := " 004007 SECONDS WITHIN A MINUTE (MICROSECOND ACCURACY)                   S                          6            0  26 S                         6         8".
Definition b4296 : text := " 004008 SECONDS WITHIN A MINUTE (HIGH ACCURACY)                          S                          7            0  30 S                         0         0".
Definition b4297 : text := " 004016 TIME INCREMENT                                                   S                          0        -4096  13 S                         0         4".
Definition b4298 : text := " 004026 TIME PERIOD OR DISPLACEMENT                                      S                          0        -4096  13 S                         0         4".
Definition b4299 : text := " 004066 SHORT TIME INCREMENT                                             S                          0         -128   8 S                         0         2".
Definition b4300 : text := " 004086 LONG TIME PERIOD OR DISPLACEMENT                                 S                          0        -8192  15 S                         0         5".
Definition b4301 : text := " 005035 MAXIMUM SIZE OF X-DIMENSION                                      NUMERIC                    0            0  12 NUMERIC                   0         4".
Definition b4302 : text := " 005042 CHANNEL NUMBER                                                   NUMERIC                    0            0   6 NUMERIC                   0         2".
Definition b4303 : text := " 005045 FIELD OF REGARD NUMBER                                           NUMERIC                    0            0   8 NUMERIC                   0         3".
Definition b4304 : text := " 005194 ALONG TRACK ROW NUMBER AT 25 KM                                  NUMERIC                    0            0  11 NUMERIC                   0         4".
Definition b4305 : text := " 005196 SCAN ANGLE                                                       DEGREE                     1        -1800  12 DEGREE                    1         4".
Definition b4306 : text := " 006029 WAVE NUMBER                                                      1/M                        1            0  22 M                         1         7".
Definition b4307 : text := " 006035 MAXIMUM SIZE OF Y-DIMENSION                                      NUMERIC                    0            0  12 NUMERIC                   0         4".
Definition b4308 : text := " 007011 PRESSURE (HIGH PRECISION)                                        PA                         0            0  30 PA                        0        10".
Definition b4309 : text := " 007012 GRID POINT ALTITUDE                                              M                          2       -50000  20 M                         2         7".
Definition b4310 : text := " 007030 HEIGHT OF STATION GROUND ABOVE MEAN SEA LEVEL (SEE NOTE 3)       M                          1        -4000  17 M                         1         5".
Definition b4311 : text := " 007031 HEIGHT OF BAROMETER ABOVE MEAN SEA LEVEL (SEE NOTE 4)            M                          1        -4000  17 M                         1         5".
Definition b4312 : text := " 007035 MAXIMUM SIZE OF Z-DIMENSION                                      NUMERIC                    0            0  12 NUMERIC                   0         4".
Definition b4313 : text := " 007036 LEVEL INDEX OF Z                                                 NUMERIC                    0            0  12 NUMERIC                   0         4".
Definition b4314 : text := " 008015 SIGNIFICANCE QUALIFIER FOR SENSOR                                CODE TABLE 8015            0            0   3 CODE TABLE 0              0         1".
Definition b4315 : text := " 008019 QUALIFIER FOR FOLLOWING CENTRE IDENTIFIER                        CODE TABLE 8019            0            0   4 CODE TABLE 8019           0         2".
Definition b4316 : text := " 008026 MATRIX SIGNIFICANCE                                              CODE TABLE 8026            0            0   6 CODE TABLE 8026           0         2".
Definition b4317 : text := " 008027 MATRIX GEOMETRY                                                  CODE TABLE 8027            0            0   6 CODE TABLE 0              0         2".
Definition b4318 : text := " 008032 STATUS OF OPERATION                                              CODE TABLE 8032            0            0   4 CODE TABLE 0              0         2".
Definition b4319 : text := " 008043 ATMOSPHERIC CHEMICAL OR PHISICAL CONSTITUENT TYPE                CODE TABLE 8043            0            0   8 CODE TABLE 8043           0         3".
Definition b4320 : text := " 008044 CAS REGISTRY NUMBER                                              CCITTIA5                   0            0  88 CHARACTER                 0        11".
Definition b4321 : text := " 008045 PARTICULATE MATTER CHARACTERIZATION                              CODE TABLE 8045            0            0   8 CODE TABLE 8045           0         3".
Definition b4322 : text := " 008046 ATMOSPHERIC CHEMICAL OR PHYSICAL CONSTITUENT TYPE                COMMONCODETABLEC-14        0            0  16 COMMON CODE TABLE C-14    0         5".
Definition b4323 : text := " 008077 RADIOMETER SENSED SURFACE TYPE                                   CODE TABLE 8077            0            0   7 CODE TABLE 8077           0         3".
Definition b4324 : text := " 008079 PRODUCT STATUS                                                   CODE TABLE 8079            0            0   4 CODE TABLE 8079           0         2".
Definition b4325 : text := " 008080 QUALIFIER FOR GTSPP QUALITY FLAG                                 CODE TABLE 8080            0            0   6 CODE TABLE 8080           0         2".
Definition b4326 : text := " 008086 VERTICAL SIGNIFICANCE FOR NWP                                    FLAGTABLE                  0            0  12 FLAG TABLE                0         0".
Definition b4327 : text := " 008090 DECIMAL SCALE OF FOLLOWING SIGNIFICANDS                          NUMERIC                    0         -127   8 NUMERIC                   0         3".
Definition b4328 : text := " 010012 DENSITY ALTITUDE                                                 M                          0        -1525  13 M                         0         4".
Definition b4329 : text := " 010053 GLOBAL NAVIGATION SATELLITE SYSTEM ALTITUDE                      M                          0        -1000  17 M                         0         5".
Definition b4330 : text := " 010064 SIGMET CRUISING LEVEL                                            CODE TABLE 10064           0            0   3 CODE TABLE 10064          0         1".
Definition b4331 : text := " 010082 INSTANTANEOUS ALTITUDE RATE                                      M/S                        3       -65536  17 M/S                       3         6".
Definition b4332 : text := " 010083 SQUARED OFF NADIR ANGLE OF THE SATELLITE FROM PLATFORM DATA      DEGREE**2                  2            0  16 DEGREE**2                 2         5".
Definition b4333 : text := " 010084 SQUARED OFF NADIR ANGLE OF THE SATELLITE FROM WAVEFORM DATA      DEGREE**2                  2            0  16 DEGREE**2                 2         5".
Definition b4334 : text := " 010090 LONG PERIOD TIDE HEIGHT                                          M                          3       -32768  16 M                         3         5".
Definition b4335 : text := " 010096 MEAN DYNAMIC TOPOGRAPHY                                          M                          3      -131072  18 ".
Definition b4336 : text := " 010097 MEAN SEA SURFACE HEIGHT FROM ALTIMETER ONLY                      M                          3      -131072  18 ".
Definition b4337 : text := " 010098 LOADING TIDE HEIGHT GEOCENTRIC OCEAN TIDE SOLUTION 1             M                          4        -2000  12 ".
Definition b4338 : text := " 010099 LOADING TIDE HEIGHT GEOCENTRIC OCEAN TIDE SOLUTION 2             M                          4        -2000  12 ".
Definition b4339 : text := " 010100 NON-EQUILIBRIUM LONG PERIOD TIDE HEIGHT                          M                          4        -2000  12 ".
Definition b4340 : text := " 010101 SQUARED OFF NADIR ANGLE OF THE SATELLITE FROM WAVEFORM DATA      DEGREE**2                  2       -32768  16 DEGREE**2                 2         5".
Definition b4341 : text := " 010102 SEA SURFACE HEIGHT ANOMALY                                       M                          3       -32768  16 ".
Definition b4342 : text := " 011030 EXTENDED DEGREE OF TURBULENCE                                    CODE TABLE 11030           0            0   6 CODE TABLE 0              0         2".
Definition b4343 : text := " 011039 EXTENDED TIME OF OCCURRENCE OF PEAK EDDY DISSIPATION RATE        CODE TABLE 11039           0            0   6 CODE TABLE 11039          0         2".
Definition b4344 : text := " 011097 WIND SPEED FROM ALTIMETER                                        M/S                        2            0  12 ".
Definition b4345 : text := " 011098 WIND SPEED FROM RADIOMETER                                       M/S                        2            0  12 ".
Definition b4346 : text := " 011100 TRUE AIRCRAFT SPEED                                              M/S                        1            0  12 M/S                       1         4".
Definition b4347 : text := " 011101 AIRCRAFT VELOCITY U-COMPONENT                                    M/S                        1        -4096  13 M/S                       1         4".
Definition b4348 : text := " 011102 AIRCRAFT VELOCITY V-COMPONENT                                    M/S                        1        -4096  13 M/S                       1         4".
Definition b4349 : text := " 011103 AIRCRAFT VELOCITY W-COMPONENT                                    M/S                        1         -512  10 M/S                       1         4".
Definition b4350 : text := " 011104 AIRCRAFT TRUE HEADING                                            DEG                        0            0   9 DEG                       0         3".
Definition b4351 : text := " 011105 EDR ALGORITHM VERSION                                            NUMERIC                    0            0   6 NUMERIC                   0         2".
Definition b4352 : text := " 011106 RUNNING MINIMUM CONFIDENCE                                       NUMERIC                    1            0   4 NUMERIC                   1         2".
Definition b4353 : text := " 011107 MAXIMUM NUMBER BAD INPUTS                                        NUMERIC                    0            0   5 NUMERIC                   0         2".
Definition b4354 : text := " 011108 PEAK LOCATION                                                    NUMERIC                    1            0   4 NUMERIC                   1         2".
Definition b4355 : text := " 011109 NUMBER OF GOOD EDR                                               NUMERIC                    0            0   4 NUMERIC                   0         2".
Definition b4356 : text := " 011192 U - COMPONENT AT 10 M                                            M/S                        1        -4096  13 M/S                       1         4".
Definition b4357 : text := " 011193 V - COMPONENT AT 10 M                                            M/S                        1        -4096  13 M/S                       1         4".
Definition b4358 : text := " 011194 W - COMPONENT AT 10 M                                            M/S                        1        -4096  13 M/S                       1         4".
Definition b4359 : text := " 011230 MAXIMUM MEAN WIND SPEED                                          M/S                        1        -4096  13 M/S                       1         4".
Definition b4360 : text := " 011231 MEAN WIND SPEED                                                  M/S                        1        -4096  13 M/S                       1         4".
Definition b4361 : text := " 011232 MINIMUM MEAN WIND SPEED                                          M/S                        1        -4096  13 M/S                       1         4".
Definition b4362 : text := " 011233 HIGHEST GUST DURING THE 10 MINUTE PERIOD PRECEDING OBSERVATION   M/S                        1        -4096  13 M/S                       1         4".
Definition b4363 : text := " 012049 TEMPERATURE CHANGE OVER SPECIFIED PERIOD                         K                          0          -30   6 C                         0         2".
Definition b4364 : text := " 012060 AWS ENCLOSURE INTERNAL TEMPERATURE                               K                          1            0  12 C                         1         3".
Definition b4365 : text := " 012066 ANTENNA TEMPERATURE                                              K                          2            0  16 K                         2         5".
Definition b4366 : text := " 012073 TEMPERATURE                                                      K                          2            0  16 K                         1         4".
Definition b4367 : text := " 012080 BRIGHTNESS TEMPERATURE REAL PART                                 K                          2       -10000  16 K                         2         5".
Definition b4368 : text := " 012081 BRIGHTNESS TEMPERATURE IMAGINARY PART                            K                          2       -10000  16 K                         2         5".
Definition b4369 : text := " 012082 PIXEL RADIOMETRIC ACCURACY                                       K                          2            0  12 K                         2         4".
Definition b4370 : text := " 012119 MINIMUM TEMPERATURE AT HEIGHT SPECIFIED, PAST 24 HOURS           K                          2            0  16 C                         2         4".
Definition b4371 : text := " 012120 GROUND TEMPERATURE                                               K                          2            0  16 C                         2         4".
Definition b4372 : text := " 012131 SNOW TEMPERATURE                                                 K                          2            0  16 C                         2         4".
Definition b4373 : text := " 012132 ICE SURFACE TEMPERATURE                                          K                          2            0  16 C                         2         4".
Definition b4374 : text := " 012158 NOISE-EQUIVALENT DELTA TEMPERATURE WHILE VIEWING COLD TARGET     K                          2            0  12 C                         2         4".
Definition b4375 : text := " 012159 NOISE-EQUIVALENT DELTA TEMPERATURE WHILE VIEWING WARM TARGET     K                          2            0  12 C                         2         4".
Definition b4376 : text := " 012165 DIRECT SUN BRIGHTNESS TEMPERATURE                                K                          0            0  23 K                         0         7".
Definition b4377 : text := " 012166 SNAPSHOT ACCURACY                                                K                          1        -4000  13 K                         1         4".
Definition b4378 : text := " 012167 RADIOMETRIC ACCURACY (PURE POLARISATION)                         K                          1            0   9 K                         1         3".
Definition b4379 : text := " 012168 RADIOMETRIC ACCURACY ( CROSS POLARISATION )                      K                          1            0   9 K                         1         3".
Definition b4380 : text := " 012197 MAXIMUM TEMPERATURE AT 2M, PAST 3 HOURS                          K                          1            0  12 ".
Definition b4381 : text := " 012198 MINIMUM TEMPERATURE AT 2M, PAST 3 HOURS                          K                          1            0  12 ".
Definition b4382 : text := " 012199 MAXIMUM TEMPERATURE AT 2M, PAST 6 HOURS                          K                          1            0  12 ".
Definition b4383 : text := " 012200 MINIMUM TEMPERATURE AT 2M, PAST 6 HOURS                          K                          1            0  12 ".
Definition b4384 : text := " 012201 BRIGHTNES TEMPERATURE OR STOKES PARAMETER                        K                          3      -271300  20 ".
Definition b4385 : text := " 013014 RAINFALL/WATER EQUIVALENT OF SNOW (AVERAGED RATE)                KG/M**2*S                  4            0  12 KG/M**2*S                 4         4".
Definition b4386 : text := " 013015 SNOWFALL (AVERAGED RATE)                                         M/S                        7            0  12 M/S                       7         4".
Definition b4387 : text := " 013048 WATER FRACTION                                                   %                          1            0  10 %                         1         4".
Definition b4388 : text := " 013055 INTENSITY OF PRECIPITATION                                       KG/M**2*S                  4            0   8 MM/HOUR                   1         3".
Definition b4389 : text := " 013074 GROUND WATER LEVEL                                               M                          2            0  18 M                         2         6".
Definition b4390 : text := " 013081 WATER CONDUCTIVITY                                               S/M                        3            0  14 S/M                       3         4".
Definition b4391 : text := " 013098 INTEGRATED WATER VAPOUR DENSITY                                  KG/M**2                    8            0  30 KG/M**2                   8        10".
Definition b4392 : text := " 013110 MASS MIXING RATIO                                                %                          0            0   7 %                         0         3".
Definition b4393 : text := " 013111 SOIL MOISTURE                                                    G/KG                       0            0  10 G/KG                      0         4".
Definition b4394 : text := " 013112 OBJECT WETNESS DURATION                                          S                          0            0  17 S                         0         5".
Definition b4395 : text := " 013114 RATE OF ICE ACCRETION                                            KGM-2H-1                   1            0  11 KG M-2 H-1                1         4".
Definition b4396 : text := " 013115 ICE THICKNESS                                                    M                          2            0  19 M                         2         6".
Definition b4397 : text := " 013117 SNOW DENSITY (LIQUID WATER CONTENT)                              KGM-3                      0            0  10 KG M-3                    0         3".
Definition b4398 : text := " 013118 DEPTH OF FRESH SNOW (HIGH ACCURACY)                              M                          3            0  14 M                         3         5".
Definition b4399 : text := " 013155 INTENSITY OF PRECIPITATION (HIGH ACCURACY)                       KG/M**2*S                  5           -1  16 MM/HOUR                   1         5".
Definition b4400 : text := " 013192 RELATIVE HUMIDITY AT 2 M                                         %                          0            0   8 ".
Definition b4401 : text := " 013195 RAIN RATE                                                        KG/M**2*HOUR               0            0   5 ".
Definition b4402 : text := " 014001 LONG-WAVE RADIATION, INTEGRATED OVER 24 HOURS                    J/M**2                    -3       -65536  17 J/M**2                   -3         5".
Definition b4403 : text := " 014002 LONG-WAVE RADIATION, INTEGRATED OVER PERIOD SPECIFIED            J/M**2                    -3       -65536  17 J/M**2                   -3         5".
Definition b4404 : text := " 014003 SHORT-WAVE RADIATION, INTEGRATED OVER 24 HOURS                   J/M**2                    -3       -65536  17 J/M**2                   -3         5".
Definition b4405 : text := " 014004 SHORT-WAVE RADIATION, INTEGRATED OVER PERIOD SPECIFIED           J/M**2                    -3       -65536  17 J/M**2                   -3         5".
Definition b4406 : text := " 014011 NET LONG-WAVE RADIATION, INTEGRATED OVER 24 HOURS                J/M**2                    -3       -65536  17 J/M**2                   -3         5".
Definition b4407 : text := " 014012 NET LONG-WAVE RADIATION, INTEGRATED OVER PERIOD SPECIFIED        J/M**2                    -3       -65536  17 J/M**2                   -3         5".
Definition b4408 : text := " 014013 NET SHORT-WAVE RADIATION, INTEGRATED OVER 24 HOURS               J/M**2                    -3       -65536  17 J/M**2                   -3         5".
Definition b4409 : text := " 014014 NET SHORT-WAVE RADIATION, INTEGRATED OVER PERIOD SPECIFIED       J/M**2                    -3       -65536  17 J/M**2                   -3         5".
Definition b4410 : text := " 014017 INSTANTANEOUS LONG-WAVE RADIATION (SEE NOTE 6)                   W/M**2                     0         -512  10 W/M**2                    0         4".
Definition b4411 : text := " 014018 INSTANTANEOUS SHORT-WAVE RADIATION (SEE NOTE 6)                  W/M**2                     0        -2048  12 W/M**2                    0         4".
Definition b4412 : text := " 014028 GLOBAL SOLAR RADIATION (HIGH ACCURACY), INTEGRATED OVER PERIOD S J/M**2                    -2            0  20 J/M**2                   -2         6".
Definition b4413 : text := " 014029 DIFFUSE SOLAR RADIATION (HIGH ACCURACY), INTEGRATED OVER PERIOD  J/M**2                    -2            0  20 J/M**2                   -2         6".
Definition b4414 : text := " 014030 DIRECT SOLAR RADIATION (HIGH ACCURACY), INTEGRATED OVER PERIOD S J/M**2                    -2            0  20 J/M**2                   -2         6".
Definition b4415 : text := " 014043 CHANNEL RADIANCE                                                 WM-2SR-1UM-1               4            0  23 W M-2 SR-1 UM-1           4         7".
Definition b4416 : text := " 014044 CHANNEL RADIANCE                                                 (W/m**2)*(1/sr)*cm         7      -100000  22 WM-2SR-1CM                7         7".
Definition b4417 : text := " 014045 CHANNEL RADIANCE                                                 (W/m**2)*(1/sr)*cm         0            0  11 WM-2SR-1CM                0         4".
Definition b4418 : text := " 014046 SCALED IASI RADIANCE                                             (W/M**2)*(1/SR)*M          0        -5000  16 (W/M**2)*(1/SR)*M         0         5".
Definition b4419 : text := " 014047 SCALED MEAN AVHRR RADIANCE                                       (W/M**2)*(1/SR)*M          0            0  31 (W/M**2)*(1/SR)*M         0        10".
Definition b4420 : text := " 014048 SCALED STANDARD DEVIATION RADIANCE                               (W/M**2)*(1/SR)*M          0            0  31 (W/M**2)*(1/SR)*M         0        10".
Definition b4421 : text := " 014051 DIRECT SOLAR RADIATION INTEGRATED OVER LAST HOUR                 J/M**2                    -3            0  14 J/M**2                   -3         4".
Definition b4422 : text := " 014052 GLOBAL UPWARD SOLAR RADIATION, INTEGRATED OVER PERIOD SPECIFIED  J/M**2                    -2            0  20 J M-2                    -2         7".
Definition b4423 : text := " 014053 NET RADIATION (HIGH ACCURACY), INTEGRATED OVER PERIOD SPECIFIED  J/M**2                    -2            0  21 J M-2                    -2         7".
Definition b4424 : text := " 014054 PHOTOSYNTETICALLY ACTIVE RADIATION, INTEGRATED OVER PERIOD SPECI J/M**2                    -3            0  16 J M-2                    -3         5".
Definition b4425 : text := " 014056 BACKGROUND LUMINANCE                                             CDM-2                      0            0  18 CD M-2                    0         6".
Definition b4426 : text := " 014057 SOIL HEAT FLUX                                                   J/M**2                    -1        -1000  11 J M-2                    -1         4".
Definition b4427 : text := " 014071 GLOBAL UV SPECTRAL IRRADIANCE                                    WM-2NM-1                   6     -1048576  21 W M-2 NM-1                6         7".
Definition b4428 : text := " 014072 GLOBAL UV IRRADIATION                                            J/M**2                     0     -4000000  23 J M-2                     0         7".
Definition b4429 : text := " 014073 GLOBAL ERYTHEMAL IRRADIATION                                     J/M**2                    -3          -32   6 J M-2                    -3         2".
Definition b4430 : text := " 015007 MOLECULAR MASS                                                   U                          2            0  15 U                         2         5".
Definition b4431 : text := " 015008 SIGNIFICAND OF VOLUMETRIC MIXING RATIO                           NUMERIC                    0            0  10 NUMERIC                   0         4".
Definition b4432 : text := " 015009 INTEGRATED NUMBER DENSITY                                        M-2                        0            0  10 M-2                       0         4".
Definition b4433 : text := " 015010 PARTIAL PRESSURE                                                 PA                         0            0  10 PA                        0         4".
Definition b4434 : text := " 015011 LOG 10 OF INTEGRATED ELECTRON DENSITY                            LOG(1/M**2)                3        14000  13 LOG(1/M**2)               3         4".
Definition b4435 : text := " 015012 TOTAL ELECTRON COUNT PER SQUARE METER                            1/M**2                   -16            0   6 1/M**2                  -16         2".
Definition b4436 : text := " 015021 INTEGRATED MASS DENSITY                                          KG/M**2                   11            0  31 KG/M**2                  11        10".
Definition b4437 : text := " 015022 INTEGRATED NUMBER DENSITY                                        M-3                        0            0  10 M-3                       0         4".
Definition b4438 : text := " 015023 MASS DENSITY                                                     KGM-3                      0            0  10 KG M-3                    0         4".
Definition b4439 : text := " 015024 OPTICAL DEPTH                                                    NUMERIC                    4            0  24 NUMERIC                   4         8".
Definition b4440 : text := " 015026 CONCENTRATION OF POLLUTANT                                       MOL/MOL                    9            0   9 MOL/MOL                   9         3".
Definition b4441 : text := " 015027 CONCENTRATION OF POLLUTANT                                       KG/M**3                    9            0  10 KG/M**3                   9         4".
Definition b4442 : text := " 015028 PHOTO DISSOCIATION RATE                                          /S                         0            0  10 /S                        0         4".
Definition b4443 : text := " 015029 EXTINCTION COEFFICIENT                                           M-1                        9            0  30 M-1                       9        10".
Definition b4444 : text := " 015040 PARTICULATE MATTER DIAMETER                                      M                          8            0   9 M                         8         3".
Definition b4445 : text := " 015042 REFLECTANCE                                                      %                          2            0  14 %                         2         5".
Definition b4446 : text := " 015043 NUMBER OF AVERAGING KERNEL LAYERS                                NUMERIC                    0            0  10 NUMERIC                   0         4".
Definition b4447 : text := " 015044 AVERAGING KERNEL VALUE                                           NUMERIC                    6     -5000000  24 NUMERIC                   6         8".
Definition b4448 : text := " 015051 METEOROLOGICAL OPTICAL RANGE                                     M                          0            0  18 M                         0         6".
Definition b4449 : text := " 015231 ATMOSPHERIC PATH DELAY IN SATELLITE SIGNAL                       M                          4            0  15 ".
Definition b4450 : text := " 020028 EXPECTED CHANGE IN INTENSITY                                     CODE TABLE 20028           0            0   3 CODE TABLE 20028          0         1".
Definition b4451 : text := " 020048 EVOLUTION OF FEATURE                                             CODE TABLE 20048           0            0   4 CODE TABLE 20048          2         2".
Definition b4452 : text := " 020079 SNOW/ICE CRYSTALS INDICATOR                                      FLAGTABLE                  0            0   2 FLAG TABLE                0         1".
Definition b4453 : text := " 020080 CLOUD AMOUNT PERCENTAGE INTERVAL                                 CODE TABLE 20080           0            0   3 CODE TABLE 0              0         1".
Definition b4454 : text := " 020093 HEIGHT OF INVERSION                                              M                         -1            0   8 M                        -1         3".
Definition b4455 : text := " 020105 SIZE OF SWARM OR BAND OF LOCUSTS AND DURATION OF PASSAGE OF SWAR CODE TABLE 20105           0            0   4 CODE TABLE 20105          0         2".
Definition b4456 : text := " 020111 X-AXIS ERROR ELLIPSE MAJOR COMPONENT                             M                         -1            0  17 M                        -1         6".
Definition b4457 : text := " 020112 Y-AXIS ERROR ELLIPSE MINOR COMPONENT                             M                         -1            0  17 M                        -1         6".
Definition b4458 : text := " 020113 Z-AXIS ERROR ELLIPSE COMPONENT                                   M                         -1            0  17 M                        -1         6".
Definition b4459 : text := " 020114 ANGLE OF X-AXIS IN ERROR ELLIPSE                                 DEG                        2       -18000  16 DEGREE                    2         5".
Definition b4460 : text := " 020115 ANGLE OF Z-AXIS IN ERROR ELLIPSE                                 DEG                        2       -18000  16 DEGREE                    2         5".
Definition b4461 : text := " 020116 EMISSION HEIGHT OF CLOUD STROKE                                  M                          0            0  16 M                         0         5".
Definition b4462 : text := " 020117 AMPLITUDE OF LIGHTNING STRIKE                                    A                         -1       -32000  16 A                        -1         5".
Definition b4463 : text := " 020118 LIGHTNING DETECTION ERROR                                        M                          0            0  19 M                         0         6".
Definition b4464 : text := " 020119 LIGHTNING DISCHARGE POLARITY                                     CODE TABLE 20119           0            0   2 CODE TABLE 0              0         1".
Definition b4465 : text := " 020121 THRESHOLD VALUE FOR POLARITY DECISION                            V                          3            0  16 V                         3         5".
Definition b4466 : text := " 020122 THRESHOLD VALUE FOR POLARITY DECISION                            A                          0            0  16 A                         0         5".
Definition b4467 : text := " 020123 MINIMUM THRESHOLD FOR DETECTION                                  VM-1                       3            0  16 V M-1                     3         5".
Definition b4468 : text := " 020124 LIGHTNING STROKE OR FLASH                                        CODE TABLE 20124           0            0   2 CODE TABLE 0              0         1".
Definition b4469 : text := " 020126 LIGHTNING RATES OF DISCHARGE                                     H-1                        0            0  23 H-1                       0         7".
Definition b4470 : text := " 020127 LIGHTNING - DISTANCE FROM STATION                                M                         -3            0   8 M                        -3         3".
Definition b4471 : text := " 020128 LIGHTNING - DIRECTION FROM STATION (DEGREE TRUE)                 DEG                        1            0  12 DEG                       1         4".
Definition b4472 : text := " 020130 CLOUD HYDROMETEOR CONCENTRATION                                  NUMERIC                    0            0  10 NUMERIC                   0         3".
Definition b4473 : text := " 020131 EFFECTIVE RADIUS OF CLOUD HYDROMETEORS                           M                          5            0   6 M                         5         2".
Definition b4474 : text := " 020132 CLOUD LIQUID WATER CONTENT                                       KGM-3                      5            0  11 KG M-3                    5         4".
Definition b4475 : text := " 020133 HYDROMETEOR RADIUS                                               M                          5            0   6 M                         5         2".
Definition b4476 : text := " 020135 ICE MASS (ON A ROD)                                              KG/M                       1            0  10 KG/M                      1         3".
Definition b4477 : text := " 020136 SUPPLEMENTARY CLOUD TYPE                                         CODE TABLE 20136           0            0   9 CODE TABLE 0              0         3".
Definition b4478 : text := " 020137 EVOLUTION OF CLOUDS                                              CODE TABLE 20137           0            0   4 CODE TABLE 0              0         2".
Definition b4479 : text := " 020192 SPECIAL PHENOMENA                                                CODE TABLE 20192           0            0  14 ".
Definition b4480 : text := " 021018 EXTENDED NYQUIST VELOCITY                                        M/S                        1            0  10 M/S                       1         4".
Definition b4481 : text := " 021019 HIGH NYQUIST VELOCITY                                            M/S                        1            0  10 M/S                       1         3".
Definition b4482 : text := " 021022 RANGE BIN OFFSET                                                 M                          1            0  14 M                         1         5".
Definition b4483 : text := " 021023 RANGE BIN SIZE                                                   M                          0            0  14 M                         0         5".
Definition b4484 : text := " 021024 AZIMUTH OFFSET                                                   DEG                        1            0  12 DEG                       1         4".
Definition b4485 : text := " 021025 AZIMUTHAL RESOLUTION                                             DEG                        1            0   8 DEG                       1         3".
Definition b4486 : text := " 021145 KU BAND AUTOMATIC GAIN CONTROL                                   dB                         2            0  13 ".
Definition b4487 : text := " 021146 RMS KU BAND AUTOMATIC GAIN CONTROL                               dB                         2            0   8 ".
Definition b4488 : text := " 021147 NUMBER OF VALID POINTS FOR KU BAND AUTOMATIC GAIN CONTROL        NUMERIC                    0            0   5 ".
Definition b4489 : text := " 021166 LAND FRACTION                                                    NUMERIC                    3            0  10 NUMERIC                   3         4".
Definition b4490 : text := " 021169 ICE PRESENCE INDICATOR                                           CODE TABLE 0               0            0   2 ".
Definition b4491 : text := " 021170 C BAND CORRECTED OCEAN BACKSCATTER COEFICIENT                    dB                         2       -32768  16 ".
Definition b4492 : text := " 021171 RMS C BAND CORRECTED OCEAN BACKSCATTER COEFICIENT                dB                         2       -32768  16 ".
Definition b4493 : text := " 021172 C BAND NET INSTRUMENTAL CORRECTION FOR AGC                       dB                         2        -2048  12 ".
Definition b4494 : text := " 021173 C BAND AUTOMATIC GAIN CONTROL                                    dB                         2            0  13 ".
Definition b4495 : text := " 021174 RMS C BAND AUTOMATIC GAIN CONTROL                                dB                         2            0   9 ".
Definition b4496 : text := " 021175 NUMBER OF VALID POINTS FOR C BAND AUTOMATIC GAIN CONTROL         NUMERIC                    0            0  10 ".
Definition b4497 : text := " 021192 RADAR BACK SCATTER                                               dB                         2        -5000  13 ".
Definition b4498 : text := " 021227 GLARE ANGLE                                                      CODE TABLE 21227           0            6   6 ".
Definition b4499 : text := " 022066 WATER CONDUCTIVITY                                               S/M                        6            0  26 S/M                       6         8".
Definition b4500 : text := " 022069 SPECTRAL WAVE DENSITY                                            M**2/HZ                    3            0  22 M**2/HZ                   3         7".
Definition b4501 : text := " 022082 MAXIMUM NON-DIRECTIONAL SPECTRAL WAVE DENSITY                    M**2*S                     2            0  20 M**2*S                    2         7".
Definition b4502 : text := " 022090 NON-DIRECTIONAL SPECTRAL ESTIMATE BY WAVE FREQUENCY              M**2*S                     2            0  20 M**2*S                    2         7".
Definition b4503 : text := " 022092 DIRECTIONAL SPECTRAL ESTIMATE BY WAVE FREQUENCY                  M**2*S/RAD                 2            0  20 M**2*S/RAD                2         7".
Definition b4504 : text := " 022162 RMS OF 20Hz KU BAND OCEAN RANGE                                  M                          3            0  16 ".
Definition b4505 : text := " 022163 NUMBER OF 20Hz VALID POINTS FOR KU BAND                          NUMERIC                    0            0  10 ".
Definition b4506 : text := " 022164 RMS 20Hz KU BAND SIGNIFICANT WAVE HEIGHT                         M                          3            0  16 ".
Definition b4507 : text := " 022165 NUMBER OF 20Hz VALID POINTS FOR KU BAND SIGNIFICANT WAVE HEIGHT  NUMERIC                    0            0  10 ".
Definition b4508 : text := " 022166 KU BAND NET INSTRUMENTAL CORRECTION FOR SIGNIFICANT WAVE HEIGHT  M                          3        -1000  11 ".
Definition b4509 : text := " 022167 NUMBER OF VALID POINTS FOR KU BAND BACKSCATTER                   NUMERIC                    0            0  10 ".
Definition b4510 : text := " 022168 C BAND OCEAN RANGE                                               M                          3            0  31 ".
Definition b4511 : text := " 022169 RMS OF C BAND OCEAN RANGE                                        M                          3            0  16 ".
Definition b4512 : text := " 022170 NUMBER OF 20Hz VALID POINTS FOR C BAND                           NUMERIC                    0            0  10 ".
Definition b4513 : text := " 022171 C BAND SIGNIFICANT WAVE HEIGHT                                   M                          3            0  16 ".
Definition b4514 : text := " 022172 RMS 20Hz C BAND SIGNIFICANT WAVE HEIGHT                          M                          3            0  16 ".
Definition b4515 : text := " 022173 NUMBER OF 20Hz VALID POINTS FOR C BAND                           NUMERIC                    0            0  10 ".
Definition b4516 : text := " 022174 C BAND NET INSTRUMENTAL CORRECTION FOR SIGNIFICANT WAVE HEIGHT   M                          3        -1000  11 ".
Definition b4517 : text := " 022175 NUMBER OF VALID POINTS FOR C BAND BACKSCATTER                    NUMERIC                    0            0  10 ".
Definition b4518 : text := " 022176 UNIQUE IDENTIFIER FOR THE PROFILE                                CCITTIA5                   0            0  72 CHARACTER                 0        72".
Definition b4519 : text := " 022177 HEIGHT OF XBT/XCTD LAUNCHER                                      M                          1            0   9 M                         0         3".
Definition b4520 : text := " 022178 XBT/XCTD LAUNCHER TYPE                                           CODE TABLE 22178           0            0   8 CODE TABLE 0              0         3".
Definition b4521 : text := " 022179 SOFTWARE VERSION OF PROFILE RECORDER                             CCITTIA5                   0            0 256 CHARACTER                 0       256".
Definition b4522 : text := " 022180 AUTO LAUNCHER SOFTWARE VERSION NUMBER                            CCITTIA5                   0            0 256 CHARACTER                 0       256".
Definition b4523 : text := " 022181 INSTRUMENT MANUFACTURER'S SERIAL NUMBER                          CCITTIA5                   0            0  32 CHARACTER                 0        32".
Definition b4524 : text := " 022182 WATER COLUMN HEIGHT                                              M                          3            0  23 M                         3         7".
Definition b4525 : text := " 022184 WATER COLUMN HEIGHT DEVIATION FROM THE REFERENCE VALUE           M                          3        -2000  12 M                         3         4".
Definition b4526 : text := " 022185 BPR TRANSMISSION COUNT                                           NUMERIC                    0            0  10 NUMERIC                   0         3".
Definition b4527 : text := " 022186 DIRECTION FROM WHICH WAVES ARE COMING (DEGREE TRUE)              DEG                        0            0   9 DEG                       0         3".
Definition b4528 : text := " 022187 DIRECTIONAL SPREAD OF WAVE                                       DEG                        0            0   9 DEG                       0         3".
Definition b4529 : text := " 022191 SPECTRAL DENSITY                                                 M**2*S/RAD                 2            0  20 ".
Definition b4530 : text := " 022192 SPECTRAL PERIOD                                                  S                          2            0  13 ".
Definition b4531 : text := " 022204 MEAN PERIOD OF WAVES                                             S                          2            0  13 ".
Definition b4532 : text := " 022206 PEAK PERIOD OF WAVES                                             S                          2            0  13 ".
Definition b4533 : text := " 023001 ACCIDENT EARLY NOTIFICATION ARTICLE APPLICABLE                   CODE TABLE 23001           0            0   3 CODE TABLE 23001          0         1".
Definition b4534 : text := " 023040 FLOW DISCHARGE - RIVER                                           M3/S                       1            0  22 M3/S                      1         7".
Definition b4535 : text := " 023041 FLOW DISCHARGE - WELL                                            M3/S                       3            0  16 M3/S                      3         5".
Definition b4536 : text := " 024014 GAMMA RADIATION DOSE RATE                                        NSV/H                      1            0  14 NSV/H                     1         4".
Definition b4537 : text := " 025029 CALIBRATION METHOD                                               FLAG TABLE 25029           0            0   6 FLAG TABLE 25029          0         2".
Definition b4538 : text := " 025031 NWP-GENERATED VERTICAL PROFILE THINNING METHOD                   CODE TABLE 25031           0            0   3 CODE TABLE 0              0         0".
Definition b4539 : text := " 025035 DECISION METHOD FOR POLARITY                                     CODE TABLE 25035           0            0   3 CODE TABLE 0              0         1".
Definition b4540 : text := " 025050 PRINCIPAL COMPONENT SCORE                                        NUMERIC                    4      -131072  18 NUMERIC                   4         6".
Definition b4541 : text := " 025063 CENTRAL PROCESSOR OR SYSTEM IDENTIFIER                           CODE TABLE 25063           0            0   8 CODE TABLE 0              0         3".
Definition b4542 : text := " 025081 INCIDENCE ANGLE                                                  DEGREE                     3            0  17 DEGREE                    3         6".
Definition b4543 : text := " 025082 AZIMUTH ANGLE                                                    DEGREE                     3            0  19 DEGREE                    3         6".
Definition b4544 : text := " 025083 FARADEY ROTATIONAL ANGLE                                         DEGREE                     3            0  19 DEGREE                    3         6".
Definition b4545 : text := " 025084 GEOMETRIC ROTATIONAL ANGLE                                       DEGREE                     5            0  26 DEGREE                    5         8".
Definition b4546 : text := " 025090 ORBIT STATE FLAG                                                 CODE TABLE 25090           0            0   4 CODE TABLE 25090          0         2".
Definition b4547 : text := " 025098 ALTIMETER DATA QUALITY FLAG                                      FLAG TABLE 25098           0            0   9 FLAG TABLE 25098          0         3".
Definition b4548 : text := " 025099 ALTIMETER CORRECTION QUALITY                                     FLAG TABLE 25099           0            0   9 FLAG TABLE 25099          0         3".
Definition b4549 : text := " 025105 FIRST DIRECTIONAL BIN                                            DEGREE                     3            0  19 ".
Definition b4550 : text := " 025106 DIRECTIONAL BIN STEP                                             DEGREE                     3            0  19 ".
Definition b4551 : text := " 025110 IMAGE PROCESSING SUMMARY                                         FLAG TABLE 25110           0            0  10 ".
Definition b4552 : text := " 025143 LINEAR COEFFICIENT                                               NUMERIC                    6     -5000000  24 NUMERIC                   6         8".
Definition b4553 : text := " 025144 MATRIX DIMENSION (I AXIS)                                        NUMERIC                    0            0   9 NUMERIC                   0         3".
Definition b4554 : text := " 025145 MATRIX DIMENSION (J AXIS)                                        NUMERIC                    0            0   9 NUMERIC                   0         3".
Definition b4555 : text := " 025151 STAR RELATIVE MAGNITUDE                                          NUMERIC                    3       -20000  14 NUMERIC                   3         5".
Definition b4556 : text := " 025152 STAR BRIGHTNESS TEMPERATURE                                      K                          0            0  17 K                         0         6".
Definition b4557 : text := " 025153 LIMB                                                             CODE TABLE 25153           0            0   2 CODE TABLE 0              0         1".
Definition b4558 : text := " 025160 KU BAND INSTRUMENTAL CORRECTION                                  M                          4      -120000  18 ".
Definition b4559 : text := " 025161 C BAND INSTRUMENTAL CORRECTION                                   M                          4      -120000  18 ".
Definition b4560 : text := " 025162 SEA STATE BIAS CORRECTION ON C BAND                              M                          4        -6000  13 ".
Definition b4561 : text := " 025163 ALTIMETER IONOSPHERIC CORRECTION ON KU BAND                      M                          3       -32768  16 ".
Definition b4562 : text := " 025164 RADIOMETER WET                                                   M                          4        -5000  13 ".
Definition b4563 : text := " 025170 SAMPLING INTERVAL (TIME)                                         S                          0            0  10 S                         0         4".
Definition b4564 : text := " 025171 SAMPLE AVERAGING PERIOD                                          S                          0            0  10 S                         0         4".
Definition b4565 : text := " 025172 NUMBER OF SAMPLES                                                NUMERIC                    0            0  10 NUMERIC                   0         4".
Definition b4566 : text := " 025174 SMOS INFORMATION FLAG                                            FLAG TABLE 25174           0            0  14 FLAG TABLE 25174          0         5".
Definition b4567 : text := " 025175 MODIFIED RESIDUAL                                                NUMERIC                    2            0  13 NUMERIC                   2         4".
Definition b4568 : text := " 025207 COMPASS AZIMUTH ANGLE                                            DEGREE                     2            0  16 ".
Definition b4569 : text := " 026030 MEASUREMENT INTEGRATION TIME                                     S                          2            0   8 S                         2         3".
Definition b4570 : text := " 026198 SECOND                                                           S                          0            0   6 ".
Definition b4571 : text := " 027010 FOOTPRINT AXIS 1                                                 M                         -1            0  14 M                        -1         5".
Definition b4572 : text := " 028010 FOOTPRINT AXIS 2                                                 M                         -1            0  14 M                        -1         5".
Definition b4573 : text := " 030010 NUMBER OF GRID POINTS                                            NUMERIC                    0            0  13 NUMERIC                   0         4".
Definition b4574 : text := " 030033 NUMBER OF BINS ALONG THE RADIAL                                  NUMERIC                    0            0  12 NUMERIC                   0         4".
Definition b4575 : text := " 030034 NUMBER OF AZIMUTHS                                               NUMERIC                    0            0  12 NUMERIC                   0         4".
Definition b4576 : text := " 031192 DATA PRESENT INDICATOR                                           NUMERIC                    0            0   1 ".
Definition b4577 : text := " 033009 RELATIVE ERROR                                                   %                          6            0  20 %                         0         7".
Definition b4578 : text := " 033028 SNAPSHOT OVERALL QUALITY                                         CODE TABLE 22028           0            0   3 CODE TABLE 22028          0         1".
Definition b4579 : text := " 033070 TOTAL OZONE QUALITY                                              CODE TABLE 33070           0            0   4 CODE TABLE 33070          0         2".
Definition b4580 : text := " 033071 PROFILE OZONE QUALITY                                            CODE TABLE 33071           0            0   4 CODE TABLE 33071          0         2".
Definition b4581 : text := " 033075 SCAN LEVEL QUALITY FLAG                                          FLAG TABLE 33075           0            0  13 FLAG TABLE 33075          0         5".
Definition b4582 : text := " 033076 CALIBRATION QUALITY FLAG                                         FLAG TABLE 33076           0            0   9 FLAG TABLE 33076          0         3".
Definition b4583 : text := " 033077 FIELD OF VIEW QUALITY FLAG                                       FLAG TABLE 33077           0            0  19 FLAG TABLE 33077          0         7".
Definition b4584 : text := " 033078 GEOLOCATION QUALITY                                              CODE TABLE 33078           0            0   4 CODE TABLE 33078          0         2".
Definition b4585 : text := " 033079 GRANULE LEVEL QUALITY FLAGS                                      FLAG TABLE 33079           0            0  16 CODE TABLE 33079          0         6".
Definition b4586 : text := " 033080 SCAN LEVEL QUALITY FLAG                                          FLAG TABLE 33080           0            0  20 FLAG TABLE 33080          0         7".
Definition b4587 : text := " 033081 CHANNEL DATA QUALITY FLAG                                        FLAG TABLE 33080           0            0  12 FLAG TABLE 33080          0         4".
Definition b4588 : text := " 033082 GEOLOCATION QUALITY FLAGS                                        FLAGTABLE                  0            0  16 FLAG TABLE                0         6".
Definition b4589 : text := " 033083 RADIANCE DATA QUALITY FLAGS                                      FLAGTABLE                  0            0  16 FLAG TABLE                0         6".
Definition b4590 : text := " 033191 ECMWF WAM QC INDICATOR                                           CODE TABLE 33191           0            0   2 ".
Definition b4591 : text := " 033192 TEM1 CONFIDENCE                                                  %                          0            0   7 ".
Definition b4592 : text := " 040011 INTERPOLATION FLAG                                               FLAG TABLE 40011           0            0   8 FLAG TABLE 40011          0         3".
Definition b4593 : text := " 040012 RADIOMETER DATA QUALITY FLAG                                     FLAG TABLE 40012           0            0   8 FLAG TABLE 40012          0         3".
Definition b4594 : text := " 040013 RADIOMETER BRIGHTNESS TEMPERATURE INTERPOLATION FLAG             CODE TABLE 40013           0            0   3 ".
Definition b4595 : text := " 040014 HIGH FREQUENCY FLUCTUATIONS OF THE SEA SURFACE TOPOGRAPHY CORREC M                          4        -3000  13 ".
Definition b4596 : text := " 040015 QUANTIZATION FACTOR                                              NUMERIC                    2            0  16 ".
Definition b4597 : text := " 040016 RESIDUAL RMS IN BAND                                             NUMERIC                    3            0  14 ".
Definition b4598 : text := " 040017 NON-NORMALISED PRINCIPAL COMPONENT SCORE                         NUMERIC                    0  -1073741824  31 ".
Definition b4599 : text := " 040018 GLACAVGIMAGIIS - AVERAGE OF IMAGER MEASUREMENTS                  (W/M**2)*(1/SR)*(1/M)      6            0  24 ".
Definition b4600 : text := " 040019 GLACVARIMAGIIS - VARIANCE OF IMAGER MEASUREMENTS                 (W/M**2)*(1/SR)*(1/M)      6            0  24 ".
Definition b4601 : text := " 040020 GQISFLAGQUALDETAILED - QUALITY FLAG FOR THE SYSTEM               FLAG TABLE 40020           0            0  17 ".
Definition b4602 : text := " 040021 FRACTION OF WEIGHTED AVHRR PIXEL IN IASI FOV COVERED WITH ICE    %                          0            0   7 ".
Definition b4603 : text := " 040022 NUMBER OF MISSING, BAD OR FAILED AVHRR PIXELS                    NUMERIC                    0            0   7 ".
Definition b4604 : text := " 040023 AUXILIARY ALTIMETER STATE FLAG                                   FLAG TABLE 40023           0            0   5 ".
Definition b4605 : text := " 040024 METEOROLOGICAL MAP AVAILABILITY                                  CODE TABLE 40024           0            0   3 ".
Definition b4606 : text := " 040025 INTERPOLATION FLAG FOR MEAN DIURNAL TIDE                         CODE TABLE 40025           0            0   2 ".
Definition b4607 : text := " 040026 SCORE QUANTIZATION FACTOR                                        NUMERIC                    2            0  16 NUMERIC                   2         5".
Definition b4608 : text := " 040193 INSTRUMENT DETECTING CLOUDS                                      FLAG TABLE 40193           0            0  16 ".
Definition b4609 : text := " 040194 VALIDATION FLAG FOR IASI LEVEL 1 PRODUCT                         FLAG TABLE 40194           0            0  16 ".
Definition b4610 : text := " 040195 QUALITY AND COMPLETENESS OF RETRIEVAL                            CODE TABLE 40195           0            0   4 ".
Definition b4611 : text := " 040196 RETRIEVAL CHOICE INDICATOR                                       FLAG TABLE 40196           0            0   8 ".
Definition b4612 : text := " 040197 SATELLITE MANOEUVRE INDICATOR                                    CODE TABLE 40197           0            0   3 ".
Definition b4613 : text := " 040198 SELECTION OF BACKGROUND STATE                                    CODE TABLE 40198           0            0   3 ".
Definition b4614 : text := " 040199 INTEGRATED N2O DENSITY                                           KG/M**2                    6            0  16 ".
Definition b4615 : text := " 040200 INTEGRATED CO DENSITY                                            KG/M**2                    7            0  16 ".
Definition b4616 : text := " 040201 INTEGRATED CH4 DENSITY                                           KG/M**2                    6            0  16 ".
Definition b4617 : text := " 040202 INTEGRATED CO2 DENSITY                                           KG/M**2                    3            0  16 ".
Definition b4618 : text := " 040203 COLD/WARM LOAD FLAG                                              FLAG TABLE 40203           0            0  12 ".
Definition b4619 : text := " 055003 DATA EXTRACTION INDICATOR                                        FLAG TABLE 55003           0            0   8 ".
Definition b4620 : text := " 000001 Table A: entry                                                   CCITTIA5                   0            0  24 CHARACTER                 0         3".
Definition b4621 : text := " 000002 Table A: data category description, line 1                       CCITTIA5                   0            0 256 CHARACTER                 0        32".
Definition b4622 : text := " 000003 Table A: data category description, line 2                       CCITTIA5                   0            0 256 CHARACTER                 0        32".
Definition b4623 : text := " 000004 BUFR/CREX Master table                                           CCITTIA5                   0            0  16 CHARACTER                 0         2".
Definition b4624 : text := " 000005 BUFR/CREX edition number                                         CCITTIA5                   0            0  24 CHARACTER                 0         3".
Definition b4625 : text := " 000006 BUFR Master table Version number                                 CCITTIA5                   0            0  16 CHARACTER                 0         2".
Definition b4626 : text := " 000007 CREX Master table version number                                 CCITTIA5                   0            0  16 CHARACTER                 0         2".
Definition b4627 : text := " 000008 BUFR Local table version number                                  CCITTIA5                   0            0  16 CHARACTER                 0         2".
Definition b4628 : text := " 000010 F descriptor to be added or defined                              CCITTIA5                   0            0   8 CHARACTER                 0         1".
Definition b4629 : text := " 000011 X descriptor to be added or defined                              CCITTIA5                   0            0  16 CHARACTER                 0         2".
Definition b4630 : text := " 000012 Y descriptor to be added or defined                              CCITTIA5                   0            0  24 CHARACTER                 0         3".
Definition b4631 : text := " 000013 Element name, line 1                                             CCITTIA5                   0            0 256 CHARACTER                 0        32".
Definition b4632 : text := " 000014 Element name, line 2                                             CCITTIA5                   0            0 256 CHARACTER                 0        32".
Definition b4633 : text := " 000015 Units name                                                       CCITTIA5                   0            0 192 CHARACTER                 0        24".
Definition b4634 : text := " 000016 Units scale sign                                                 CCITTIA5                   0            0   8 CHARACTER                 0         1".
Definition b4635 : text := " 000017 Units scale                                                      CCITTIA5                   0            0  24 CHARACTER                 0         3".
Definition b4636 : text := " 000018 Units reference sign                                             CCITTIA5                   0            0   8 CHARACTER                 0         1".
Definition b4637 : text := " 000019 Units reference value                                            CCITTIA5                   0            0  80 CHARACTER                 0        10".
Definition b4638 : text := " 000020 Element data width                                               CCITTIA5                   0            0  24 CHARACTER                 0         3".
Definition b4639 : text := " 000024 Code figure                                                      CCITTIA5                   0            0  64 CHARACTER                 0         8".
Definition b4640 : text := " 000025 Code figure meaning                                              CCITTIA5                   0            0 496 CHARACTER                 0        62".
Definition b4641 : text := " 000026 Bit number                                                       CCITTIA5                   0            0  16 CHARACTER                 0         2".
Definition b4642 : text := " 000027 Bit number meaning                                               CCITTIA5                   0            0 496 CHARACTER                 0        62".
Definition b4643 : text := " 000030 Descriptor defining sequence                                     CCITTIA5                   0            0  48 CHARACTER                 0         6".
Definition b4644 : text := " 001001 WMO block number                                                 NUMERIC                    0            0   7 NUMERIC                   0         2".
Definition b4645 : text := " 001002 WMO station number                                               NUMERIC                    0            0  10 NUMERIC                   0         3".
Definition b4646 : text := " 001003 WMO Region number/geographical area                              CODE TABLE                 0            0   3 CODE TABLE                0         1".
Definition b4647 : text := " 001004 WMO Region sub-area                                              NUMERIC                    0            0   3 NUMERIC                   0         1".
Definition b4648 : text := " 001005 Buoy/platform identifier                                         NUMERIC                    0            0  17 NUMERIC                   0         5".
Definition b4649 : text := " 001006 Aircraft flight number                                           CCITTIA5                   0            0  64 CHARACTER                 0         8".
Definition b4650 : text := " 001007 Satellite identifier                                             CODE TABLE                 0            0  10 CODE TABLE                0         4".
Definition b4651 : text := " 001008 Aircraft registration number or other identification             CCITTIA5                   0            0  64 CHARACTER                 0         8".
Definition b4652 : text := " 001009 Type of commercial aircraft                                      CCITTIA5                   0            0  64 CHARACTER                 0         8".
Definition b4653 : text := " 001010 Stationary buoy platform identifier; e.g. C-MAN buoys            CCITTIA5                   0            0  64 CHARACTER                 0         8".
Definition b4654 : text := " 001011 Ship or mobile land station identifier                           CCITTIA5                   0            0  72 CHARACTER                 0         9".
Definition b4655 : text := " 001012 Direction of motion of moving observing platform (degree true)   DEG                        0            0   9 DEG                       0         3".
Definition b4656 : text := " 001013 Speed of motion of moving observing platform                     M/S                        0            0  10 M/S                       0         3".
Definition b4657 : text := " 001014 Platform drift speed (high precision)                            M/S                        2            0  10 M/S                       2         4".
Definition b4658 : text := " 001015 Station or site name                                             CCITTIA5                   0            0 160 CHARACTER                 0        20".
Definition b4659 : text := " 001018 Short station or site name                                       CCITTIA5                   0            0  40 CHARACTER                 0         5".
Definition b4660 : text := " 001019 Long station or site name                                        CCITTIA5                   0            0 256 CHARACTER                 0        32".
Definition b4661 : text := " 001020 WMO Region sub-area                                              NUMERIC                    0            0   4 NUMERIC                   0         2".
Definition b4662 : text := " 001021 Synoptic feature identifier                                      NUMERIC                    0            0  14 NUMERIC                   0         4".
Definition b4663 : text := " 001022 Name of feature                                                  CCITTIA5                   0            0 224 CHARACTER                 0        28".
Definition b4664 : text := " 001023 Observation sequence number                                      NUMERIC                    0            0   9 NUMERIC                   0         3".
Definition b4665 : text := " 001024 Wind speed source                                                CODE TABLE                 0            0   5 CODE TABLE                0         2".
Definition b4666 : text := " 001025 Storm identifier                                                 CCITTIA5                   0            0  24 CHARACTER                 0         3".
Definition b4667 : text := " 001026 WMO storm name                                                   CCITTIA5                   0            0  64 CHARACTER                 0         8".
Definition b4668 : text := " 001027 WMO long storm name                                              CCITTIA5                   0            0  80 CHARACTER                 0        10".
Definition b4669 : text := " 001028 Aerosol optical depth (AOD) source                               CODE TABLE                 0            0   5 CODE TABLE                0         2".
Definition b4670 : text := " 001029 SSI source                                                       CODE TABLE                 0            0   5 CODE TABLE                0         2".
Definition b4671 : text := " 001030 Numerical model identifier                                       CCITTIA5                   0            0 128 CHARACTER                 0        16".
Definition b4672 : text := " 001031 Identification of originating/generating centre                  CODE TABLE                 0            0  16 CODE TABLE                0         5".
Definition b4673 : text := " 001032 Generating application                                           CODE TABLE DEFINED BY OR   0            0   8 CODE TABLE                0         3".
Definition b4674 : text := " 001033 Identification of originating/generating centre                  COMMON CODE TABLE C-1      0            0   8 COMMON CODE TABLE C-1     0         3".
Definition b4675 : text := " 001034 Identification of originating/generating sub-centre              COMMON CODE TABLE C-12     0            0   8 COMMON CODE TABLE C-12    0         3".
Definition b4676 : text := " 001035 Originating centre                                               COMMON CODE TABLE C-11     0            0  16 COMMON CODE TABLE C-11    0         5".
Definition b4677 : text := " 001036 Agency in charge of operating the observing platform             CODE TABLE                 0            0  20 CODE TABLE                0         7".
Definition b4678 : text := " 001037 SIGMET sequence identifier                                       CCITTIA5                   0            0  24 CHARACTER                 0         3".
Definition b4679 : text := " 001038 Source of sea ice fraction                                       CODE TABLE                 0            0   5 CODE TABLE                0         2".
Definition b4680 : text := " 001039 Graphical Area Forecast (GFA) sequence identifier                CCITTIA5                   0            0  40 CHARACTER                 0         5".
Definition b4681 : text := " 001041 Absolute platform velocity - first component                     M/S                        5  -1073741824  31 M/S                       5        10".
Definition b4682 : text := " 001042 Absolute platform velocity - second component                    M/S                        5  -1073741824  31 M/S                       5        10".
Definition b4683 : text := " 001043 Absolute platform velocity - third component                     M/S                        5  -1073741824  31 M/S                       5        10".
Definition b4684 : text := " 001050 Platform transmitter ID number                                   NUMERIC                    0            0  17 NUMERIC                   0         6".
Definition b4685 : text := " 001051 Platform transmitter ID number                                   CCITTIA5                   0            0  96 CHARACTER                 0        12".
Definition b4686 : text := " 001052 Platform transmitter ID                                          CODE TABLE                 0            0   3 CODE TABLE                0         1".
Definition b4687 : text := " 001053 Tsunameter report sequence number triggered by a tsunami event   NUMERIC                    0            0   7 NUMERIC                   0         2".
Definition b4688 : text := " 001060 Aircraft reporting point (Beacon identifier)                     CCITTIA5                   0            0  64 CHARACTER                 0         8".
Definition b4689 : text := " 001062 Short ICAO location indicator                                    CCITTIA5                   0            0  32 CHARACTER                 0         4".
Definition b4690 : text := " 001063 ICAO location indicator                                          CCITTIA5                   0            0  64 CHARACTER                 0         8".
Definition b4691 : text := " 001064 Runway designator                                                CCITTIA5                   0            0  32 CHARACTER                 0         4".
Definition b4692 : text := " 001065 ICAO region identifier                                           CCITTIA5                   0            0 256 CHARACTER                 0        32".
Definition b4693 : text := " 001075 Tide station identification                                      CCITTIA5                   0            0  40 CHARACTER                 0         5".
Definition b4694 : text := " 001080 Ship line number according to SOOP                               CCITTIA5                   0            0  32 CHARACTER                 0         4".
Definition b4695 : text := " 001081 Radiosonde serial number                                         CCITTIA5                   0            0 160 CHARACTER                 0        20".
Definition b4696 : text := " 001082 Radiosonde ascension number                                      NUMERIC                    0            0  14 NUMERIC                   0         4".
Definition b4697 : text := " 001083 Radiosonde release number                                        NUMERIC                    0            0   3 NUMERIC                   0         1".
Definition b4698 : text := " 001085 Observing platform manufacturer's model                          CCITTIA5                   0            0 160 CHARACTER                 0        20".
Definition b4699 : text := " 001086 Observing platform manufacturer's serial number                  CCITTIA5                   0            0 256 CHARACTER                 0        32".
Definition b4700 : text := " 001087 WMO Marine observing platform extended identifier                NUMERIC                    0            0  23 NUMERIC                   0         7".
Definition b4701 : text := " 001090 Technique for making up initial perturbations                    CODE TABLE                 0            0   8 CODE TABLE                0         3".
Definition b4702 : text := " 001091 Ensemble member number                                           NUMERIC                    0            0  10 NUMERIC                   0         4".
Definition b4703 : text := " 001092 Type of ensemble forecast                                        CODE TABLE                 0            0   8 CODE TABLE                0         3".
Definition b4704 : text := " 001093 Balloon lot number                                               CCITTIA5                   0            0  96 CHARACTER                 0        12".
Definition b4705 : text := " 001094 WBAN number                                                      NUMERIC                    0            0  17 NUMERIC                   0         5".
Definition b4706 : text := " 001095 Observer identification                                          CCITTIA5                   0            0  32 CHARACTER                 0         4".
Definition b4707 : text := " 001096 Station acquisition                                              CCITTIA5                   0            0 160 CHARACTER                 0        20".
Definition b4708 : text := " 001097 Star catalog number                                              NUMERIC                    0            0  13 NUMERIC                   0         4".
Definition b4709 : text := " 001098 Type of product                                                  CODE TABLE                 0            0  12 CODE TABLE                0         4".
Definition b4710 : text := " 001099 Unique product definition                                        CCITTIA5                   0            0 248 CHARACTER                 0        31".
Definition b4711 : text := " 001101 State identifier                                                 CODE TABLE                 0            0  10 CODE TABLE                0         3".
Definition b4712 : text := " 001102 National station number                                          NUMERIC                    0            0  30 NUMERIC                   0         9".
Definition b4713 : text := " 001103 IMO Number. Unique Lloyd's registry                              NUMERIC                    0            0  14 NUMERIC                   0         5".
Definition b4714 : text := " 001110 Aircraft tail number                                             CCITTIA5                   0            0  48 CHARACTER                 0         6".
Definition b4715 : text := " 001111 Origination airport                                              CCITTIA5                   0            0  24 CHARACTER                 0         3".
Definition b4716 : text := " 001112 Destination airport                                              CCITTIA5                   0            0  24 CHARACTER                 0         3".
Definition b4717 : text := " 001113 Template version number defined by originating centre            NUMERIC                    1            0   9 NUMERIC                   1         3".
Definition b4718 : text := " 001124 Grid point identifier                                            NUMERIC                    0            0  24 NUMERIC                   0         8".
Definition b4719 : text := " 001144 Snapshot identifier                                              NUMERIC                    0            0  31 NUMERIC                   0        10".
Definition b4720 : text := " 002001 Type of station                                                  CODE TABLE                 0            0   2 CODE TABLE                0         1".
Definition b4721 : text := " 002002 Type of instrumentation for wind measurement                     FLAG TABLE                 0            0   4 FLAG TABLE                0         2".
Definition b4722 : text := " 002003 Type of measuring equipment used                                 CODE TABLE                 0            0   4 CODE TABLE                0         2".
Definition b4723 : text := " 002004 Type of instrumentation for evaporation measurement or type of c CODE TABLE                 0            0   4 CODE TABLE                0         2".
Definition b4724 : text := " 002005 Precision of temperature observation                             K                          2            0   7 K                         2         3".
Definition b4725 : text := " 002007 Type of sensor for water level measuring instrument              CODE TABLE                 0            0   4 CODE TABLE                0         2".
Definition b4726 : text := " 002011 Radiosonde type                                                  CODE TABLE                 0            0   8 CODE TABLE                0         3".
Definition b4727 : text := " 002012 Radiosonde computational method                                  CODE TABLE                 0            0   4 CODE TABLE                0         2".
Definition b4728 : text := " 002013 Solar and infrared radiation correction                          CODE TABLE                 0            0   4 CODE TABLE                0         2".
Definition b4729 : text := " 002014 Tracking technique/status of system used                         CODE TABLE                 0            0   7 CODE TABLE                0         3".
Definition b4730 : text := " 002015 Radiosonde completeness                                          CODE TABLE                 0            0   4 CODE TABLE                0         2".
Definition b4731 : text := " 002016 Radiosonde configuration                                         FLAG TABLE                 0            0   5 FLAG TABLE                0         2".
Definition b4732 : text := " 002019 Satellite instruments                                            CODE TABLE                 0            0  11 CODE TABLE                0         4".
Definition b4733 : text := " 002020 Satellite classification                                         CODE TABLE                 0            0   9 CODE TABLE                0         3".
Definition b4734 : text := " 002021 Satellite instrument data used in processing                     FLAG TABLE                 0            0   9 FLAG TABLE                0         3".
Definition b4735 : text := " 002022 Satellite data-processing technique used                         FLAG TABLE                 0            0   8 FLAG TABLE                0         3".
Definition b4736 : text := " 002023 Satellite-derived wind computation method                        CODE TABLE                 0            0   4 CODE TABLE                0         2".
Definition b4737 : text := " 002024 Integrated mean humidity computational method                    CODE TABLE                 0            0   4 CODE TABLE                0         2".
Definition b4738 : text := " 002025 Satellite channel(s) used in computation                         FLAG TABLE                 0            0  25 FLAG TABLE                0         9".
Definition b4739 : text := " 002026 Cross-track resolution                                           M                          2            0  12 M                         2         4".
Definition b4740 : text := " 002027 Along-track resolution                                           M                          2            0  12 M                         2         4".
Definition b4741 : text := " 002028 Segment size at nadir in x-direction                             M                          0            0  18 M                         0         6".
Definition b4742 : text := " 002029 Segment size at nadir in y-direction                             M                          0            0  18 M                         0         6".
Definition b4743 : text := " 002030 Method of current measurement                                    CODE TABLE                 0            0   3 CODE TABLE                0         1".
Definition b4744 : text := " 002031 Duration and time of current measurement                         CODE TABLE                 0            0   5 CODE TABLE                0         2".
Definition b4745 : text := " 002032 Indicator for digitization                                       CODE TABLE                 0            0   2 CODE TABLE                0         1".
Definition b4746 : text := " 002033 Method of salinity/depth measurement                             CODE TABLE                 0            0   3 CODE TABLE                0         1".
Definition b4747 : text := " 002034 Drogue type                                                      CODE TABLE                 0            0   5 CODE TABLE                0         2".
Definition b4748 : text := " 002035 Cable length                                                     M                          0            0   9 M                         0         3".
Definition b4749 : text := " 002036 Buoy type                                                        CODE TABLE                 0            0   2 CODE TABLE                0         1".
Definition b4750 : text := " 002037 Method of tidal observation                                      CODE TABLE                 0            0   3 CODE TABLE                0         1".
Definition b4751 : text := " 002038 Method of water temperature and/or salinity measurement          CODE TABLE                 0            0   4 CODE TABLE                0         2".
Definition b4752 : text := " 002039 Method of wet-bulb temperature measurement                       CODE TABLE                 0            0   3 CODE TABLE                0         1".
Definition b4753 : text := " 002040 Method of removing velocity and motion of platform from current  CODE TABLE                 0            0   4 CODE TABLE                0         2".
Definition b4754 : text := " 002041 Method for estimating reports related to synoptic features       CODE TABLE                 0            0   6 CODE TABLE                0         2".
Definition b4755 : text := " 002042 Indicator for sea surface current speed                          CODE TABLE                 0            0   2 CODE TABLE                0         1".
Definition b4756 : text := " 002044 Indicator for method of calculating spectral wave data           CODE TABLE                 0            0   4 CODE TABLE                0         2".
Definition b4757 : text := " 002045 Indicator for type of platform                                   CODE TABLE                 0            0   4 CODE TABLE                0         2".
Definition b4758 : text := " 002046 Wave measurement instrumentation                                 CODE TABLE                 0            0   4 CODE TABLE                0         2".
Definition b4759 : text := " 002047 Deep-ocean tsunameter type                                       CODE TABLE                 0            0   7 CODE TABLE                0         2".
Definition b4760 : text := " 002048 Satellite sensor indicator                                       CODE TABLE                 0            0   4 CODE TABLE                0         2".
Definition b4761 : text := " 002049 Geostationary satellite data-processing technique used           FLAG TABLE                 0            0   8 FLAG TABLE                0         3".
Definition b4762 : text := " 002050 Geostationary sounder satellite channels used                    FLAG TABLE                 0            0  20 FLAG TABLE                0         7".
Definition b4763 : text := " 002051 Indicator to specify observing method for extreme temperatures   CODE TABLE                 0            0   4 CODE TABLE                0         2".
Definition b4764 : text := " 002052 Geostationary imager satellite channels used                     FLAG TABLE                 0            0   6 FLAG TABLE                0         2".
Definition b4765 : text := " 002053 GOES-I/M brightness temperature characteristics                  CODE TABLE                 0            0   4 CODE TABLE                0         2".
Definition b4766 : text := " 002054 GOES-I/M soundings parameter characteristics                     CODE TABLE                 0            0   4 CODE TABLE                0         2".
Definition b4767 : text := " 002055 Geostationary soundings statistical parameters                   CODE TABLE                 0            0   4 CODE TABLE                0         2".
Definition b4768 : text := " 002056 Geostationary soundings accuracy statistics                      CODE TABLE                 0            0   4 CODE TABLE                0         2".
Definition b4769 : text := " 002057 Origin of first-guess information for GOES-I/M soundings         CODE TABLE                 0            0   4 CODE TABLE                0         2".
Definition b4770 : text := " 002058 Valid times of first guess information for GOES-I/M soundings    CODE TABLE                 0            0   4 CODE TABLE                0         2".
Definition b4771 : text := " 002059 Origin of analysis information for GOES-I/M soundings            CODE TABLE                 0            0   4 CODE TABLE                0         2".
Definition b4772 : text := " 002060 Origin of surface information for GOES-I/M soundings             CODE TABLE                 0            0   4 CODE TABLE                0         2".
Definition b4773 : text := " 002061 Aircraft navigational system                                     CODE TABLE                 0            0   3 CODE TABLE                0         1".
Definition b4774 : text := " 002062 Type of aircraft data relay system                               CODE TABLE                 0            0   4 CODE TABLE                0         2".
Definition b4775 : text := " 002063 Aircraft roll angle                                              DEG                        2       -18000  16 DEG                       2         5".
Definition b4776 : text := " 002064 Aircraft roll angle quality                                      CODE TABLE                 0            0   2 CODE TABLE                0         1".
Definition b4777 : text := " 002065 ACARS ground-receiving station                                   CCITTIA5                   0            0  40 CHARACTER                 0         5".
Definition b4778 : text := " 002066 Radiosonde ground receiving system                               CODE TABLE                 0            0   6 CODE TABLE                0         2".
Definition b4779 : text := " 002067 Radiosonde operating frequency                                   HZ                        -5            0  15 HZ                       -5         5".
Definition b4780 : text := " 002070 Original specification of latitude/longitude                     CODE TABLE                 0            0   4 CODE TABLE                0         2".
Definition b4781 : text := " 002071 Spectrographic wavelength                                        M                         13            0  30 M                        13        10".
Definition b4782 : text := " 002072 Spectrographic width                                             M                         13            0  30 M                        13        10".
Definition b4783 : text := " 002080 Balloon manufacturer                                             CODE TABLE                 0            0   6 CODE TABLE                0         2".
Definition b4784 : text := " 002081 Type of balloon                                                  CODE TABLE                 0            0   5 CODE TABLE                0         2".
Definition b4785 : text := " 002082 Weight of balloon                                                KG                         3            0  12 KG                        3         4".
Definition b4786 : text := " 002083 Type of balloon shelter                                          CODE TABLE                 0            0   4 CODE TABLE                0         2".
Definition b4787 : text := " 002084 Type of gas used in balloon                                      CODE TABLE                 0            0   4 CODE TABLE                0         2".
Definition b4788 : text := " 002085 Amount of gas used in balloon                                    KG                         3            0  13 KG                        3         4".
Definition b4789 : text := " 002086 Balloon flight train length                                      M                          1            0  10 M                         1         4".
Definition b4790 : text := " 002091 Entry sensor 4/20 mA                                             A                          4            0  10 A                         4         3".
Definition b4791 : text := " 002095 Type of pressure sensor                                          CODE TABLE                 0            0   5 CODE TABLE                0         2".
Definition b4792 : text := " 002096 Type of temperature sensor                                       CODE TABLE                 0            0   5 CODE TABLE                0         2".
Definition b4793 : text := " 002097 Type of humidity sensor                                          CODE TABLE                 0            0   5 CODE TABLE                0         2".
Definition b4794 : text := " 002098 Type of wave sensor                                              CODE TABLE                 0            0   4 CODE TABLE                0         2".
Definition b4795 : text := " 002099 Polarization                                                     CODE TABLE                 0            0   3 CODE TABLE                0         1".
Definition b4796 : text := " 002100 Radar constant                                                   DB                         1            0  12 DB                        1         4".
Definition b4797 : text := " 002101 Type of antenna                                                  CODE TABLE                 0            0   4 CODE TABLE                0         2".
Definition b4798 : text := " 002102 Antenna height above tower base                                  M                          0            0   8 M                         0         3".
Definition b4799 : text := " 002103 Radome                                                           FLAG TABLE                 0            0   2 FLAG TABLE                0         1".
Definition b4800 : text := " 002104 Antenna polarization                                             CODE TABLE                 0            0   4 CODE TABLE                0         2".
Definition b4801 : text := " 002105 Maximum antenna gain                                             DB                         0            0   6 DB                        0         2".
Definition b4802 : text := " 002106 3-dB beamwidth                                                   DEG                        1            0   6 DEG                       1         2".
Definition b4803 : text := " 002107 Sidelobe suppression                                             DB                         0            0   6 DB                        0         2".
Definition b4804 : text := " 002108 Crosspol discrimination (on axis)                                DB                         0            0   6 DB                        0         2".
Definition b4805 : text := " 002109 Antenna speed (azimuth)                                          DEG/S                      2            0  12 DEG/S                     2         4".
Definition b4806 : text := " 002110 Antenna speed (elevation)                                        DEG/S                      2            0  12 DEG/S                     2         4".
Definition b4807 : text := " 002111 Radar incidence angle                                            DEG                        1            0  10 DEG                       1         4".
Definition b4808 : text := " 002112 Radar look angle                                                 DEG                        1            0  12 DEG                       1         4".
Definition b4809 : text := " 002113 Number of azimuth looks                                          NUMERIC                    0            0   4 NUMERIC                   0         2".
Definition b4810 : text := " 002114 Antenna effective surface area                                   M2                         0            0  15 M2                        0         5".
Definition b4811 : text := " 002115 Type of surface observing equipment                              CODE TABLE                 0            0   5 CODE TABLE                0         2".
Definition b4812 : text := " 002116 Percentage of 320 MHz band processed                             %                          0            0   7 %                         0         3".
Definition b4813 : text := " 002117 Percentage of 80 MHz band processed                              %                          0            0   7 %                         0         3".
Definition b4814 : text := " 002118 Percentage of 20 MHz band processed                              %                          0            0   7 %                         0         3".
Definition b4815 : text := " 002119 Instrument operations                                            CODE TABLE                 0            0   3 CODE TABLE                0         1".
Definition b4816 : text := " 002120 Ocean wave frequency                                             HZ                         3            0  10 HZ                        3         4".
Definition b4817 : text := " 002121 Mean frequency                                                   HZ                        -8            0   7 HZ                       -8         3".
Definition b4818 : text := " 002122 Frequency agility range                                          HZ                        -6         -128   8 HZ                       -6         3".
Definition b4819 : text := " 002123 Peak power                                                       W                         -4            0   7 W                        -4         3".
Definition b4820 : text := " 002124 Average power                                                    W                         -1            0   7 W                        -1         3".
Definition b4821 : text := " 002125 Pulse repetition frequency                                       HZ                        -1            0   8 HZ                       -1         3".
Definition b4822 : text := " 002126 Pulse width                                                      S                          7            0   6 S                         7         2".
Definition b4823 : text := " 002127 Receiver intermediate frequency                                  HZ                        -6            0   7 HZ                       -6         3".
Definition b4824 : text := " 002128 Intermediate frequency bandwidth                                 HZ                        -5            0   6 HZ                       -5         2".
Definition b4825 : text := " 002129 Minimum detectable signal                                        DB                         0         -150   5 DB                        0         3".
Definition b4826 : text := " 002130 Dynamic range                                                    DB                         0            0   7 DB                        0         3".
Definition b4827 : text := " 002131 Sensitivity time control (STC)                                   FLAG TABLE                 0            0   2 FLAG TABLE                0         1".
Definition b4828 : text := " 002132 Azimuth pointing accuracy                                        DEG                        2            0   6 DEG                       2         2".
Definition b4829 : text := " 002133 Elevation pointing accuracy                                      DEG                        2            0   6 DEG                       2         2".
Definition b4830 : text := " 002134 Antenna beam azimuth                                             DEG                        2            0  16 DEG                       2         5".
Definition b4831 : text := " 002135 Antenna elevation                                                DEG                        2        -9000  15 DEG                       2         5".
Definition b4832 : text := " 002136 Range processed by range attenuation correction                  M                         -3            0  16 M                        -3         5".
Definition b4833 : text := " 002137 Radar dual PRF ratio                                             CODE TABLE                 0            0   4 CODE TABLE                0         2".
Definition b4834 : text := " 002138 Antenna rotation direction                                       CODE TABLE                 0            0   2 CODE TABLE                0         1".
Definition b4835 : text := " 002140 Satellite radar beam azimuth angle                               DEG                        0            0   9 DEG                       0         3".
Definition b4836 : text := " 002141 Measurement type                                                 CCITTIA5                   0            0  24 CHARACTER                 0         3".
Definition b4837 : text := " 002142 Ozone instrument serial number/identification                    CCITTIA5                   0            0  32 CHARACTER                 0         4".
Definition b4838 : text := " 002143 Ozone instrument type                                            CODE TABLE                 0            0   7 CODE TABLE                0         3".
Definition b4839 : text := " 002144 Light source type for Brewer spectrophotometer                   CODE TABLE                 0            0   4 CODE TABLE                0         2".
Definition b4840 : text := " 002145 Wavelength setting for Dobson instruments                        CODE TABLE                 0            0   4 CODE TABLE                0         2".
Definition b4841 : text := " 002146 Source conditions for Dobson instruments                         CODE TABLE                 0            0   4 CODE TABLE                0         2".
Definition b4842 : text := " 002147 Method of transmission to collection centre                      CODE TABLE                 0            0   7 CODE TABLE                0         2".
Definition b4843 : text := " 002148 Data collection and/or location system                           CODE TABLE                 0            0   5 CODE TABLE                0         2".
Definition b4844 : text := " 002149 Type of data buoy                                                CODE TABLE                 0            0   6 CODE TABLE                0         2".
Definition b4845 : text := " 002150 TOVS/ATOVS/AVHRR instrumentation channel number                  CODE TABLE                 0            0   6 CODE TABLE                0         2".
Definition b4846 : text := " 002151 Radiometer identifier                                            CODE TABLE                 0            0  11 CODE TABLE                0         4".
Definition b4847 : text := " 002152 Satellite instrument used in data processing                     FLAG TABLE                 0            0  31 FLAG TABLE                0        10".
Definition b4848 : text := " 002153 Satellite channel centre frequency                               HZ                        -8            0  26 HZ                       -8         8".
Definition b4849 : text := " 002154 Satellite channel band width                                     HZ                        -8            0  26 HZ                       -8         8".
Definition b4850 : text := " 002155 Satellite channel wavelength                                     M                          9            0  16 M                         9         5".
Definition b4851 : text := " 002156 Percentage of valid KU ocean retracker measurements              %                          0            0   7 %                         0         3".
Definition b4852 : text := " 002157 Percentage of valid S ocean retracker measurements               %                          0            0   7 %                         0         3".
Definition b4853 : text := " 002158 RA-2 instruments                                                 FLAG TABLE                 0            0   9 FLAG TABLE                0         3".
Definition b4854 : text := " 002159 MWR instruments                                                  FLAG TABLE                 0            0   8 FLAG TABLE                0         3".
Definition b4855 : text := " 002160 Wave length of the radar                                         CODE TABLE                 0            0   4 CODE TABLE                0         2".
Definition b4856 : text := " 002163 Height assignment method                                         CODE TABLE                 0            0   4 CODE TABLE                0         2".
Definition b4857 : text := " 002164 Tracer correlation method                                        CODE TABLE                 0            0   3 CODE TABLE                0         1".
Definition b4858 : text := " 002165 Radiance type flags                                              FLAG TABLE                 0            0  15 FLAG TABLE                0         5".
Definition b4859 : text := " 002166 Radiance type                                                    CODE TABLE                 0            0   4 CODE TABLE                0         2".
Definition b4860 : text := " 002167 Radiance computational method                                    CODE TABLE                 0            0   4 CODE TABLE                0         2".
Definition b4861 : text := " 002168 Hydrostatic pressure of lower end of cable (thermistor string)   PA                        -3            0  16 KPA                       0         5".
Definition b4862 : text := " 002169 Anemometer type                                                  CODE TABLE                 0            0   4 CODE TABLE                0         2".
Definition b4863 : text := " 002171 Instrument serial number for water temperature profile measureme CCITTIA5                   0            0  64 CCITT IA5                 0         8".
Definition b4864 : text := " 002172 Product type for retrieved atmospheric gases                     CODE TABLE                 0            0   8 CODE TABLE                0         3".
Definition b4865 : text := " 002173 Square of the off-nadir angle                                    DEG2                       4            0  10 DEG2                      4         4".
Definition b4866 : text := " 002174 Mean across track pixel number                                   NUMERIC                    0            0   9 NUMERIC                   0         3".
Definition b4867 : text := " 002175 Method of precipitation measurement                              CODE TABLE                 0            0   4 CODE TABLE                0         2".
Definition b4868 : text := " 002176 Method of state of ground measurement                            CODE TABLE                 0            0   4 CODE TABLE                0         2".
Definition b4869 : text := " 002177 Method of snow depth measurement                                 CODE TABLE                 0            0   4 CODE TABLE                0         2".
Definition b4870 : text := " 002178 Method of liquid content measurement of precipitation            CODE TABLE                 0            0   4 CODE TABLE                0         2".
Definition b4871 : text := " 002179 Type of sky condition algorithm                                  CODE TABLE                 0            0   4 CODE TABLE                0         2".
Definition b4872 : text := " 002180 Main present weather detecting system                            CODE TABLE                 0            0   4 CODE TABLE                0         2".
Definition b4873 : text := " 002181 Supplementary present weather sensor                             FLAG TABLE                 0            0  21 FLAG TABLE                0         7".
Definition b4874 : text := " 002182 Visibility measurement system                                    CODE TABLE                 0            0   4 CODE TABLE                0         2".
Definition b4875 : text := " 002183 Cloud detection system                                           CODE TABLE                 0            0   4 CODE TABLE                0         2".
Definition b4876 : text := " 002184 Type of lightning detection sensor                               CODE TABLE                 0            0   4 CODE TABLE                0         2".
Definition b4877 : text := " 002185 Method of evaporation measurement                                CODE TABLE                 0            0   4 CODE TABLE                0         2".
Definition b4878 : text := " 002186 Capability to detect precipitation phenomena                     FLAG TABLE                 0            0  30 FLAG TABLE                0        10".
Definition b4879 : text := " 002187 Capability to detect other weather phenomena                     FLAG TABLE                 0            0  18 FLAG TABLE                0         6".
Definition b4880 : text := " 002188 Capability to detect obscuration                                 FLAG TABLE                 0            0  21 FLAG TABLE                0         7".
Definition b4881 : text := " 002189 Capability to discriminate lightning strikes                     FLAG TABLE                 0            0  12 FLAG TABLE                0         4".
Definition b4882 : text := " 002190 Lagrangian drifter submergence (% time submerged)                %                          0            0   7 %                         0         3".
Definition b4883 : text := " 002191 Geopotential height calculation                                  CODE TABLE                 0            0   4 CODE TABLE                0         2".
Definition b4884 : text := " 004001 Year                                                             A                          0            0  12 A                         0         4".
Definition b4885 : text := " 004002 Month                                                            MON                        0            0   4 MON                       0         2".
Definition b4886 : text := " 004003 Day                                                              D                          0            0   6 D                         0         2".
Definition b4887 : text := " 004004 Hour                                                             H                          0            0   5 H                         0         2".
Definition b4888 : text := " 004005 Minute                                                           MIN                        0            0   6 MIN                       0         2".
Definition b4889 : text := " 004006 Second                                                           S                          0            0   6 S                         0         2".
Definition b4890 : text := " 004007 Seconds within a minute (microsecond accuracy)                   S                          6            0  26 S                         6         8".
Definition b4891 : text := " 004008 Seconds Within a Minute (high accuracy)                          S                          7            0  30".
Definition b4892 : text := " 004011 Time increment                                                   A                          0        -1024  11 A                         0         4".
Definition b4893 : text := " 004012 Time increment                                                   MON                        0        -1024  11 MON                       0         4".
Definition b4894 : text := " 004013 Time increment                                                   D                          0        -1024  11 D                         0         4".
Definition b4895 : text := " 004014 Time increment                                                   H                          0        -1024  11 H                         0         4".
Definition b4896 : text := " 004015 Time increment                                                   MIN                        0        -2048  12 MIN                       0         4".
Definition b4897 : text := " 004016 Time increment                                                   S                          0        -4096  13 S                         0         4".
Definition b4898 : text := " 004017 Reference time period for accumulated or extreme data            MIN                        0        -1440  12 MIN                       0         4".
Definition b4899 : text := " 004021 Time period or displacement                                      A                          0        -1024  11 A                         0         4".
Definition b4900 : text := " 004022 Time period or displacement                                      MON                        0        -1024  11 MON                       0         4".
Definition b4901 : text := " 004023 Time period or displacement                                      D                          0        -1024  11 D                         0         4".
Definition b4902 : text := " 004024 Time period or displacement                                      H                          0        -2048  12 H                         0         4".
Definition b4903 : text := " 004025 Time period or displacement                                      MIN                        0        -2048  12 MIN                       0         4".
Definition b4904 : text := " 004026 Time period or displacement                                      S                          0        -4096  13 S                         0         4".
Definition b4905 : text := " 004031 Duration of time relating to following value                     H                          0            0   8 H                         0         3".
Definition b4906 : text := " 004032 Duration of time relating to following value                     MIN                        0            0   6 MIN                       0         2".
Definition b4907 : text := " 004041 Time difference, UTC - LMT                                       MIN                        0        -1440  12 MIN                       0         4".
Definition b4908 : text := " 004043 Day of the year                                                  D                          0            0   9 D                         0         3".
Definition b4909 : text := " 004051 Principal time of daily reading of maximum temperature           H                          0            0   5 H                         0         2".
Definition b4910 : text := " 004052 Principal time of daily reading of minimum temperature           H                          0            0   5 H                         0         2".
Definition b4911 : text := " 004053 Number of days with precipitation equal to or more than 1 mm     NUMERIC                    0            0   6 NUMERIC                   0         2".
Definition b4912 : text := " 004059 Times of observation used to compute the reported mean values    FLAG TABLE                 0            0   6 FLAG TABLE                0         2".
Definition b4913 : text := " 004065 Short time increment                                             MIN                        0         -128   8 MIN                       0         2".
Definition b4914 : text := " 004066 Short time increment                                             S                          0         -128   8 S                         0         2".
Definition b4915 : text := " 004073 Short time period or displacement                                D                          0         -128   8 D                         0         2".
Definition b4916 : text := " 004074 Short time period or displacement                                H                          0         -128   8 H                         0         2".
Definition b4917 : text := " 004075 Short time period or displacement                                MIN                        0         -128   8 MIN                       0         2".
Definition b4918 : text := " 004080 Averaging period for following value                             CODE TABLE                 0            0   4 CODE TABLE                0         2".
Definition b4919 : text := " 004086 Long time period or displacement                                 S                          0        -8192  15 S                         0         5".
Definition b4920 : text := " 005001 Latitude (high accuracy)                                         DEG                        5     -9000000  25 DEG                       5         7".
Definition b4921 : text := " 005002 Latitude (coarse accuracy)                                       DEG                        2        -9000  15 DEG                       2         4".
Definition b4922 : text := " 005011 Latitude increment (high accuracy)                               DEG                        5     -9000000  25 DEG                       5         7".
Definition b4923 : text := " 005012 Latitude increment (coarse accuracy)                             DEG                        2        -9000  15 DEG                       2         4".
Definition b4924 : text := " 005015 Latitude displacement (high accuracy)                            DEG                        5     -9000000  25 DEG                       5         7".
Definition b4925 : text := " 005016 Latitude displacement (coarse accuracy)                          DEG                        2        -9000  15 DEG                       2         4".
Definition b4926 : text := " 005021 Bearing or azimuth (degree true)                                 DEG                        2            0  16 DEG                       2         5".
Definition b4927 : text := " 005022 Solar azimuth (degree true)                                      DEG                        2            0  16 DEG                       2         5".
Definition b4928 : text := " 005023 Sun to satellite azimuth difference                              DEG                        1        -1800  12 DEG                       1         4".
Definition b4929 : text := " 005030 Direction (spectral)                                             DEG                        0            0  12 DEG                       0         4".
Definition b4930 : text := " 005031 Row number                                                       NUMERIC                    0            0  12 NUMERIC                   0         4".
Definition b4931 : text := " 005033 Pixel size on horizontal - 1                                     M                         -1            0  16 M                        -1         5".
Definition b4932 : text := " 005034 Along track row number                                           NUMERIC                    0            0  11 NUMERIC                   0         4".
Definition b4933 : text := " 005035 Maximum size of x-dimension                                      NUMERIC                    0            0  12 NUMERIC                   0         4".
Definition b4934 : text := " 005036 Ship transect number according to SOOP                           NUMERIC                    0            0   7 NUMERIC                   0         2".
Definition b4935 : text := " 005040 Orbit number                                                     NUMERIC                    0            0  24 NUMERIC                   0         8".
Definition b4936 : text := " 005041 Scan line number                                                 NUMERIC                    0            0   8 NUMERIC                   0         3".
Definition b4937 : text := " 005042 Channel number                                                   NUMERIC                    0            0   6 NUMERIC                   0         2".
Definition b4938 : text := " 005043 Field of view number                                             NUMERIC                    0            0   8 NUMERIC                   0         3".
Definition b4939 : text := " 005044 Satellite cycle number                                           NUMERIC                    0            0  11 NUMERIC                   0         4".
Definition b4940 : text := " 005045 Field of regard number                                           NUMERIC                    0            0   8 NUMERIC                   0         3".
Definition b4941 : text := " 005052 Channel number increment                                         NUMERIC                    0            0   5 NUMERIC                   0         2".
Definition b4942 : text := " 005053 Field of view number increment                                   NUMERIC                    0            0   5 NUMERIC                   0         2".
Definition b4943 : text := " 005060 Y angular position from centre of gravity                        DEG                        6     -8000000  24 DEG                       6         8".
Definition b4944 : text := " 005061 Z angular position from centre of gravity                        DEG                        6     -8000000  24 DEG                       6         8".
Definition b4945 : text := " 006001 Longitude (high accuracy)                                        DEG                        5    -18000000  26 DEG                       5         8".
Definition b4946 : text := " 006002 Longitude (coarse accuracy)                                      DEG                        2       -18000  16 DEG                       2         5".
Definition b4947 : text := " 006011 Longitude increment (high accuracy)                              DEG                        5    -18000000  26 DEG                       5         8".
Definition b4948 : text := " 006012 Longitude increment (coarse accuracy)                            DEG                        2       -18000  16 DEG                       2         5".
Definition b4949 : text := " 006015 Longitude displacement (high accuracy)                           DEG                        5    -18000000  26 DEG                       5         8".
Definition b4950 : text := " 006016 Longitude displacement (coarse accuracy)                         DEG                        2       -18000  16 DEG                       2         5".
Definition b4951 : text := " 006021 Distance                                                         M                         -1            0  13 M                        -1         4".
Definition b4952 : text := " 006029 Wave number                                                      M-1                        1            0  22 M-1                       1         7".
Definition b4953 : text := " 006030 Wave number (spectral)                                           RAD/M                      5            0  13 RAD/M                     5         4".
Definition b4954 : text := " 006031 Column number                                                    NUMERIC                    0            0  12 NUMERIC                   0         4".
Definition b4955 : text := " 006033 Pixel size on horizontal - 2                                     M                         -1            0  16 M                        -1         5".
Definition b4956 : text := " 006034 Cross-track cell number                                          NUMERIC                    0            0   7 NUMERIC                   0         3".
Definition b4957 : text := " 006035 Maximum size of y-dimension                                      NUMERIC                    0            0  12 NUMERIC                   0         4".
Definition b4958 : text := " 006040 Radius of confidence                                             M                          0            0  13 M                         0         4".
Definition b4959 : text := " 007001 Height of station                                                M                          0         -400  15 M                         0         5".
Definition b4960 : text := " 007002 Height or altitude                                               M                         -1          -40  16 M                        -1         5".
Definition b4961 : text := " 007003 Geopotential                                                     M2 S-2                    -1         -400  17 M2 S-2                    1         6".
Definition b4962 : text := " 007004 Pressure                                                         PA                        -1            0  14 PA                       -1         5".
Definition b4963 : text := " 007005 Height increment                                                 M                          0         -400  12 M                         0         4".
Definition b4964 : text := " 007006 Height above station                                             M                          0            0  15 M                         0         5".
Definition b4965 : text := " 007007 Height                                                           M                          0        -1000  17 M                         0         6".
Definition b4966 : text := " 007008 Geopotential                                                     M2 S-2                     0       -10000  20 M2 S-2                    0         7".
Definition b4967 : text := " 007009 Geopotential height                                              GPM                        0        -1000  17 GPM                       0         5".
Definition b4968 : text := " 007010 Flight level                                                     M                          0        -1024  16 FT                       -1         5".
Definition b4969 : text := " 007011 Pressure (high precision)                                        PA                         0            0  30 PA                        0        10".
Definition b4970 : text := " 007012 Grid point altitude                                              M                          2       -50000  20 M                         2         7".
Definition b4971 : text := " 007021 Elevation                                                        DEG                        2        -9000  15 DEG                       2         5".
Definition b4972 : text := " 007022 Solar elevation                                                  DEG                        2        -9000  15 DEG                       2         5".
Definition b4973 : text := " 007024 Satellite zenith angle                                           DEG                        2        -9000  15 DEG                       2         5".
Definition b4974 : text := " 007025 Solar zenith angle                                               DEG                        2        -9000  15 DEG                       2         5".
Definition b4975 : text := " 007026 Satellite zenith angle                                           DEG                        4      -900000  21 DEG                       4         7".
Definition b4976 : text := " 007030 Height of station ground above mean sea level                    M                          1        -4000  17 M                         1         5".
Definition b4977 : text := " 007031 Height of barometer above mean sea level                         M                          1        -4000  17 M                         1         5".
Definition b4978 : text := " 007032 Height of sensor above local ground (or deck of marine platform) M                          2            0  16 M                         2         5".
Definition b4979 : text := " 007033 Height of sensor above water surface                             M                          1            0  12 M                         1         4".
Definition b4980 : text := " 007035 Maximum size of z-dimension                                      NUMERIC                    0            0  12 NUMERIC                   0         4".
Definition b4981 : text := " 007036 Level index of z                                                 NUMERIC                    0            0  12 NUMERIC                   0         4".
Definition b4982 : text := " 007040 Impact parameter                                                 M                          1     62000000  22 M                         1         8".
Definition b4983 : text := " 007061 Depth below land surface                                         M                          2            0  14 M                         2         5".
Definition b4984 : text := " 007062 Depth below sea/water surface                                    M                          1            0  17 M                         1         6".
Definition b4985 : text := " 007063 Depth below sea/water surface (cm)                               M                          2            0  20 M                         2         7".
Definition b4986 : text := " 007064 Representative height of sensor above station                    M                          0            0   4 M                         0         2".
Definition b4987 : text := " 007065 Water pressure                                                   PA                        -3            0  17 PA                       -3         6".
Definition b4988 : text := " 007070 Drogue depth                                                     M                          0            0  10 M                         0         4".
Definition b4989 : text := " 008001 Vertical sounding significance                                   FLAG TABLE                 0            0   7 FLAG TABLE                0         3".
Definition b4990 : text := " 008002 Vertical significance (surface observations)                     CODE TABLE                 0            0   6 CODE TABLE                0         2".
Definition b4991 : text := " 008003 Vertical significance (satellite observations)                   CODE TABLE                 0            0   6 CODE TABLE                0         2".
Definition b4992 : text := " 008004 Phase of aircraft flight                                         CODE TABLE                 0            0   3 CODE TABLE                0         1".
Definition b4993 : text := " 008005 Meteorological attribute significance                            CODE TABLE                 0            0   4 CODE TABLE                0         2".
Definition b4994 : text := " 008006 Ozone vertical sounding significance                             FLAG TABLE                 0            0   9 FLAG TABLE                0         3".
Definition b4995 : text := " 008007 Dimensional significance                                         CODE TABLE                 0            0   4 CODE TABLE                0         2".
Definition b4996 : text := " 008008 Radiation vertical sounding significance                         FLAG TABLE                 0            0   9 FLAG TABLE                0         3".
Definition b4997 : text := " 008009 Detailed phase of flight                                         CODE TABLE                 0            0   4 CODE TABLE                0         2".
Definition b4998 : text := " 008010 Surface qualifier (for temperature data)                         CODE TABLE                 0            0   5 CODE TABLE                0         2".
Definition b4999 : text := " 008011 Meteorological feature                                           CODE TABLE                 0            0   6 CODE TABLE                0         2".
Definition b5000 : text := " 008012 Land/sea qualifier                                               CODE TABLE                 0            0   2 CODE TABLE                0         1".
Definition b5001 : text := " 008013 Day/night qualifier                                              CODE TABLE                 0            0   2 CODE TABLE                0         1".
Definition b5002 : text := " 008014 Qualifier for runway visual range                                CODE TABLE                 0            0   4 CODE TABLE                0         2".
Definition b5003 : text := " 008015 Significance qualifier for sensor                                CODE TABLE                 0            0   3 CODE TABLE                0         1".
Definition b5004 : text := " 008016 Change qualifier of a trend-type forecast or an aerodrome foreca CODE TABLE                 0            0   3 CODE TABLE                0         1".
Definition b5005 : text := " 008017 Qualifier of the time when the forecast change is expected       CODE TABLE                 0            0   2 CODE TABLE                0         1".
Definition b5006 : text := " 008018 SEAWINDS land/ice surface type                                   FLAG TABLE                 0            0  17 FLAG TABLE                0         6".
Definition b5007 : text := " 008019 Qualifier for following centre identifier                        CODE TABLE                 0            0   4 CODE TABLE                0         2".
Definition b5008 : text := " 008020 Total number of missing entities (with respect to accumulation o NUMERIC                    0            0  16 NUMERIC                   0         5".
Definition b5009 : text := " 008021 Time significance                                                CODE TABLE                 0            0   5 CODE TABLE                0         2".
Definition b5010 : text := " 008022 Total number (with respect to accumulation or average)           NUMERIC                    0            0  16 NUMERIC                   0         5".
Definition b5011 : text := " 008023 First-order statistics                                           CODE TABLE                 0            0   6 CODE TABLE                0         2".
Definition b5012 : text := " 008024 Difference statistics                                            CODE TABLE                 0            0   6 CODE TABLE                0         2".
Definition b5013 : text := " 008025 Time difference qualifier                                        CODE TABLE                 0            0   4 CODE TABLE                0         2".
Definition b5014 : text := " 008026 Matrix significance                                              CODE TABLE                 0            0   6 CODE TABLE                0         2".
Definition b5015 : text := " 008027 Matrix geometry                                                  CODE TABLE                 0            0   6 CODE TABLE                0         2".
Definition b5016 : text := " 008029 Surface type                                                     CODE TABLE                 0            0   8 CODE TABLE                0         3".
Definition b5017 : text := " 008030 Manual on Codes (Volume I.1, Section C) Code table from which da NUMERIC                    0            0  13 NUMERIC                   0         4".
Definition b5018 : text := " 008031 Data category - CREX table A                                     NUMERIC                    0            0   8 NUMERIC                   0         3".
Definition b5019 : text := " 008032 Status of operation                                              CODE TABLE                 0            0   4 CODE TABLE                0         2".
Definition b5020 : text := " 008033 Method of derivation of percentage confidence                    CODE TABLE                 0            0   7 CODE TABLE                0         3".
Definition b5021 : text := " 008035 Type of monitoring exercise                                      CODE TABLE                 0            0   3 CODE TABLE                0         1".
Definition b5022 : text := " 008036 Type of centre or station performing monitoring                  CODE TABLE                 0            0   3 CODE TABLE                0         1".
Definition b5023 : text := " 008039 Time significance (Aviation forecast)                            CODE TABLE                 0            0   6 CODE TABLE                0         2".
Definition b5024 : text := " 008040 Flight level significance                                        CODE TABLE                 0            0   6 CODE TABLE                0         2".
Definition b5025 : text := " 008041 Data significance                                                CODE TABLE                 0            0   5 CODE TABLE                0         2".
Definition b5026 : text := " 008042 Extended vertical sounding significance                          FLAG TABLE                 0            0  18 FLAG TABLE                0         6".
Definition b5027 : text := " 008043 Atmospheric chemical or physical constituent type                CODE TABLE                 0            0   8 CODE TABLE                0         3".
Definition b5028 : text := " 008044 CAS registry number                                              CCITTIA5                   0            0  88 CHARACTER                 0        11".
Definition b5029 : text := " 008045 Particulate matter characterization                              CODE TABLE                 0            0   8 CODE TABLE                0         3".
Definition b5030 : text := " 008046 Atmospheric chemical or physical constituent type                COMMON CODE TABLE C-14     0            0  16 COMMON CODE TABLE C-14    0         5".
Definition b5031 : text := " 008049 Number of observations                                           NUMERIC                    0            0   8 NUMERIC                   0         3".
Definition b5032 : text := " 008050 Qualifier for number of missing values in calculation of statist CODE TABLE                 0            0   4 CODE TABLE                0         2".
Definition b5033 : text := " 008051 Qualifier for number of missing values in calculation of statist CODE TABLE                 0            0   3 CODE TABLE                0         1".
Definition b5034 : text := " 008052 Condition for which number of days of occurrence follows         CODE TABLE                 0            0   5 CODE TABLE                0         2".
Definition b5035 : text := " 008053 Day of occurrence qualifier                                      CODE TABLE                 0            0   2 CODE TABLE                0         1".
Definition b5036 : text := " 008054 Qualifier for wind speed or wind gusts                           CODE TABLE                 0            0   3 CODE TABLE                0         1".
Definition b5037 : text := " 008060 Sample scanning mode significance                                CODE TABLE                 0            0   4 CODE TABLE                0         2".
Definition b5038 : text := " 008065 Sun-glint indicator                                              CODE TABLE                 0            0   2 CODE TABLE                0         1".
Definition b5039 : text := " 008066 Semi-transparency indicator                                      CODE TABLE                 0            0   2 CODE TABLE                0         1".
Definition b5040 : text := " 008070 TOVS/ATOVS product qualifier                                     CODE TABLE                 0            0   4 CODE TABLE                0         2".
Definition b5041 : text := " 008072 Pixel(s) type                                                    CODE TABLE                 0            0   3 CODE TABLE                0         1".
Definition b5042 : text := " 008074 Altimeter echo type                                              CODE TABLE                 0            0   2 CODE TABLE                0         1".
Definition b5043 : text := " 008075 Ascending/descending orbit qualifier                             CODE TABLE                 0            0   2 CODE TABLE                0         1".
Definition b5044 : text := " 008076 Type of band                                                     CODE TABLE                 0            0   6 CODE TABLE                0         2".
Definition b5045 : text := " 008077 Radiometer sensed surface type                                   CODE TABLE                 0            0   7 CODE TABLE                0         3".
Definition b5046 : text := " 008079 Aviation product status                                          CODE TABLE                 0            0   4 CODE TABLE                0         2".
Definition b5047 : text := " 008080 Qualifier for GTSPP quality flag                                 CODE TABLE                 0            0   6 CODE TABLE                0         2".
Definition b5048 : text := " 008081 Type of equipment                                                CODE TABLE                 0            0   6 CODE TABLE                0         2".
Definition b5049 : text := " 008082 Modification of sensor height to another value                   CODE TABLE                 0            0   3 CODE TABLE                0         1".
Definition b5050 : text := " 008083 Nominal value indicator                                          FLAG TABLE                 0            0  15 FLAG TABLE                0         5".
Definition b5051 : text := " 008085 Beam identifier                                                  CODE TABLE                 0            0   3 CODE TABLE                0         1".
Definition b5052 : text := " 008086 Vertical significance for NWP                                    FLAG TABLE                 0            0  12".
Definition b5053 : text := " 008090 Decimal scale of following significands                          NUMERIC                    0         -127   8 NUMERIC                   0         3".
Definition b5054 : text := " 010001 Height of land surface                                           M                          0         -400  15 M                         0         5".
Definition b5055 : text := " 010002 Height                                                           M                         -1          -40  16 M                        -1         5".
Definition b5056 : text := " 010003 Geopotential                                                     M2 S-2                    -1         -400  17 M2 S-2                   -1         6".
Definition b5057 : text := " 010004 Pressure                                                         PA                        -1            0  14 PA                       -1         5".
Definition b5058 : text := " 010007 Height                                                           M                          0        -1000  17 M                         0         6".
Definition b5059 : text := " 010008 Geopotential                                                     M2 S-2                     0       -10000  20 M2 S-2                    0         7".
Definition b5060 : text := " 010009 Geopotential height                                              GPM                        0        -1000  17 GPM                       0         5".
Definition b5061 : text := " 010010 Minimum pressure reduced to mean sea level                       PA                        -1            0  14 PA                       -1         5".
Definition b5062 : text := " 010011 Maximum pressure reduced to mean sea level                       PA                        -1            0  14 PA                       -1         5".
Definition b5063 : text := " 010012 Density Altitude                                                 M                          0        -1525  13 M                         0         4".
Definition b5064 : text := " 010031 In direction of the North Pole, distance from the Earth's centre M                          2  -1073741824  31 M                         2        10".
Definition b5065 : text := " 010032 Satellite distance to Earth's centre                             M                          1            0  27 M                         2         9".
Definition b5066 : text := " 010033 Altitude (platform to ellipsoid)                                 M                          1            0  27 M                         2         9".
Definition b5067 : text := " 010034 Earth's radius                                                   M                          1            0  27 M                         2         9".
Definition b5068 : text := " 010035 Earth's local radius of curvature                                M                          1     62000000  22 M                         1         8".
Definition b5069 : text := " 010036 Geoid undulation                                                 M                          2       -15000  15 M                         2         6".
Definition b5070 : text := " 010040 Number of retrieved layers                                       NUMERIC                    0            0  10 NUMERIC                   0         4".
Definition b5071 : text := " 010050 Standard deviation altitude                                      M                          2            0  16 M                         2         5".
Definition b5072 : text := " 010051 Pressure reduced to mean sea level                               PA                        -1            0  14 PA                       -1         5".
Definition b5073 : text := " 010052 Altimeter setting (QNH)                                          PA                        -1            0  14 PA                       -1         5".
Definition b5074 : text := " 010053 Global navigation satellite system altitude                      M                          0        -1000  17 M                         0         5".
Definition b5075 : text := " 010060 Pressure change                                                  PA                        -1        -1024  11 PA                       -1         4".
Definition b5076 : text := " 010061 3-hour pressure change                                           PA                        -1         -500  10 PA                       -1         4".
Definition b5077 : text := " 010062 24-hour pressure change                                          PA                        -1        -1000  11 PA                       -1         4".
Definition b5078 : text := " 010063 Characteristic of pressure tendency                              CODE TABLE                 0            0   4 CODE TABLE                0         2".
Definition b5079 : text := " 010064 SIGMET cruising level                                            CODE TABLE                 0            0   3 CODE TABLE                0         1".
Definition b5080 : text := " 010070 Indicated aircraft altitude                                      M                          0         -400  16 M                         0         5".
Definition b5081 : text := " 010080 Viewing zenith angle                                             DEG                        2        -9000  15 DEG                       2         5".
Definition b5082 : text := " 010081 Altitude of COG above reference ellipsoid                        M                          3            0  31 M                         3        10".
Definition b5083 : text := " 010082 Instantaneous altitude rate                                      M/S                        3       -65536  17 M/S                       3         6".
Definition b5084 : text := " 010083 Squared off nadir angle of the satellite from platform data      DEG2                       2            0  16 DEG2                      2         5".
Definition b5085 : text := " 010084 Squared off nadir angle of the satellite from waveform data      DEG2                       2            0  16 DEG2                      2         5".
Definition b5086 : text := " 010085 Mean sea surface height                                          M                          3      -131072  18 M                         3         6".
Definition b5087 : text := " 010086 Geoid's height                                                   M                          3      -131072  18 M                         3         6".
Definition b5088 : text := " 010087 Ocean depth/land elevation                                       M                          1      -131072  18 M                         1         6".
Definition b5089 : text := " 010088 Total geocentric ocean tide height (solution 1)                  M                          3       -32768  16 M                         3         5".
Definition b5090 : text := " 010089 Total geocentric ocean tide height (solution 2)                  M                          3       -32768  16 M                         3         5".
Definition b5091 : text := " 010090 Long period tide height                                          M                          3       -32768  16 M                         3         5".
Definition b5092 : text := " 010091 Tidal loading height                                             M                          3       -32768  16 M                         3         5".
Definition b5093 : text := " 010092 Solid Earth tide height                                          M                          3       -32768  16 M                         3         5".
Definition b5094 : text := " 010093 Geocentric pole tide height                                      M                          3       -32768  16 M                         3         5".
Definition b5095 : text := " 010095 Height of atmosphere used                                        M                          0            0  16 M                         0         5".
Definition b5096 : text := " 010096 Mean dynamic topography                                          M                          3      -131072  18 M                         3         6".
Definition b5097 : text := " 010097 Mean sea surface height from altimeter only                      M                          3      -131072  18 M                         3         6".
Definition b5098 : text := " 010098 Loading tide height geocentric ocean tide solution 1             M                          4        -2000  12 M                         4         4".
Definition b5099 : text := " 010099 Loading tide height geocentric ocean tide solution 2             M                          4        -2000  12 M                         4         4".
Definition b5100 : text := " 010100 Non-equilibrium long period tide height                          M                          4        -2000  12 M                         4         4".
Definition b5101 : text := " 010101 Squared off nadir angle of the satellite from waveform data      DEG2                       2       -32768  16 DEG2                      2         5".
Definition b5102 : text := " 010102 Sea surface height anomaly                                       M                          3       -32768  16 M                         3         5".
Definition b5103 : text := " 011001 Wind direction (degree true)                                     DEG                        0            0   9 DEG                       0         3".
Definition b5104 : text := " 011002 Wind speed                                                       M/S                        1            0  12 M/S                       1         4".
Definition b5105 : text := " 011003 u-component                                                      M/S                        1        -4096  13 M/S                       1         4".
Definition b5106 : text := " 011004 v-component                                                      M/S                        1        -4096  13 M/S                       1         4".
Definition b5107 : text := " 011005 w-component                                                      PA/S                       1         -512  10 PA/S                      1         4".
Definition b5108 : text := " 011006 w-component                                                      M/S                        2        -4096  13 M/S                       2         4".
Definition b5109 : text := " 011010 Wind direction associated with wind speed which follows (degree  DEG                        0            0   9 DEG                       0         3".
Definition b5110 : text := " 011011 Wind direction at 10 m (degree true)                             DEG                        0            0   9 DEG                       0         3".
Definition b5111 : text := " 011012 Wind speed at 10 m                                               M/S                        1            0  12 M/S                       1         4".
Definition b5112 : text := " 011013 Wind direction at 5 m (degree true)                              DEG                        0            0   9 DEG                       0         3".
Definition b5113 : text := " 011014 Wind speed at 5 m                                                M/S                        1            0  12 M/S                       1         4".
Definition b5114 : text := " 011016 Extreme counterclockwise wind direction of a variable wind (degr DEG                        0            0   9 DEG                       0         3".
Definition b5115 : text := " 011017 Extreme clockwise wind direction of a variable wind (degree true DEG                        0            0   9 DEG                       0         3".
Definition b5116 : text := " 011019 Steadiness of wind                                               %                          0            0   7 %                         0         3".
Definition b5117 : text := " 011021 Relative vorticity                                               /S                         9       -65536  17 /S                        9         6".
Definition b5118 : text := " 011022 Divergence                                                       /S                         9       -65536  17 /S                        9         6".
Definition b5119 : text := " 011023 Velocity potential                                               M2/S                      -2       -65536  17 M2/S                     -2         6".
Definition b5120 : text := " 011030 Extended degree of turbulence                                    CODE TABLE                 0            0   6 CODE TABLE                0         2".
Definition b5121 : text := " 011031 Degree of turbulence                                             CODE TABLE                 0            0   4 CODE TABLE                0         2".
Definition b5122 : text := " 011032 Height of base of turbulence                                     M                         -1          -40  16 M                        -1         5".
Definition b5123 : text := " 011033 Height of top of turbulence                                      M                         -1          -40  16 M                        -1         5".
Definition b5124 : text := " 011034 Vertical gust velocity                                           M/S                        1        -1024  11 M/S                       1         4".
Definition b5125 : text := " 011035 Vertical gust acceleration                                       M S-2                      2        -8192  14 M S-2                     2         5".
Definition b5126 : text := " 011036 Maximum derived equivalent vertical gust speed                   M/S                        1            0  10 M/S                       1         4".
Definition b5127 : text := " 011037 Turbulence index                                                 CODE TABLE                 0            0   6 CODE TABLE                0         2".
Definition b5128 : text := " 011038 Time of occurrence of peak eddy dissipation rate                 CODE TABLE                 0            0   5 CODE TABLE                0         2".
Definition b5129 : text := " 011039 Extended time of occurrence of peak eddy dissipation rate        CODE TABLE                 0            0   6 CODE TABLE                0         2".
Definition b5130 : text := " 011040 Maximum wind speed (mean wind)                                   M/S                        1            0  12 M/S                       1         4".
Definition b5131 : text := " 011041 Maximum wind gust speed                                          M/S                        1            0  12 M/S                       1         4".
Definition b5132 : text := " 011042 Maximum wind speed (10-minute mean wind)                         M/S                        1            0  12 M/S                       1         4".
Definition b5133 : text := " 011043 Maximum wind gust direction (degree true)                        DEG                        0            0   9 DEG                       0         3".
Definition b5134 : text := " 011044 Mean wind direction for surface - 1500 m (5000 feet) (degree tru DEG                        0            0   9 DEG                       0         3".
Definition b5135 : text := " 011045 Mean wind speed for surface - 1500 m (5000 feet)                 M/S                        1            0  12 M/S                       1         4".
Definition b5136 : text := " 011046 Maximum instantaneous wind speed                                 M/S                        1            0  12 M/S                       1         4".
Definition b5137 : text := " 011047 Maximum instantaneous wind speed over 10 minutes                 M/S                        1            0  12 M/S                       1         4".
Definition b5138 : text := " 011049 Standard deviation of wind direction (degree true)               DEG                        0            0   9 DEG                       0         3".
Definition b5139 : text := " 011050 Standard deviation of horizontal wind speed                      M/S                        1            0  12 M/S                       1         4".
Definition b5140 : text := " 011051 Standard deviation of vertical wind speed                        M/S                        1            0   8 M/S                       1         3".
Definition b5141 : text := " 011052 Formal uncertainty in wind speed                                 M/S                        2            0  13 M/S                       2         5".
Definition b5142 : text := " 011053 Formal uncertainty in wind direction (degree true)               DEG                        2            0  15 DEG                       2         5".
Definition b5143 : text := " 011054 Mean wind direction for 1500 m - 3000 m (degree true)            DEG                        0            0   9 DEG                       0         3".
Definition b5144 : text := " 011055 Mean wind speed for 1500 m - 3000 m                              M/S                        1            0  12 M/S                       1         4".
Definition b5145 : text := " 011061 Absolute wind shear in 1 km layer below                          M/S                        1            0  12 M/S                       1         4".
Definition b5146 : text := " 011062 Absolute wind shear in 1 km layer above                          M/S                        1            0  12 M/S                       1         4".
Definition b5147 : text := " 011070 Designator of the runway affected by wind shear (including ALL)  CCITTIA5                   0            0  32 CHARACTER                 0         4".
Definition b5148 : text := " 011071 Turbulent vertical momentum flux                                 M2 S-2                     3         -128  14 M2 S-2                    3         5".
Definition b5149 : text := " 011072 Turbulent vertical buoyancy flux                                 K M S-1                    3         -128  11 K M S-1                   3         4".
Definition b5150 : text := " 011073 Turbulent kinetic energy                                         M2 S-2                     2        -1024  13 M2 S-2                    2         4".
Definition b5151 : text := " 011074 Dissipation energy                                               M2 S-2                     2        -1024  10 M2 S-2                    2         4".
Definition b5152 : text := " 011075 Mean turbulence intensity (eddy dissipation rate)                M2/3 S-1                   2            0   8 M2/3 S-1                  2         3".
Definition b5153 : text := " 011076 Peak turbulence intensity (eddy dissipation rate)                M2/3 S-1                   2            0   8 M2/3 S-1                  2         3".
Definition b5154 : text := " 011077 Reporting interval or averaging time for eddy dissipation rate   S                          0            0  12 S                         0         4".
Definition b5155 : text := " 011081 Model wind direction at 10m (degree true)                        DEG                        2            0  16 DEG                       2         5".
Definition b5156 : text := " 011082 Model wind speed at 10m                                          M/S                        2            0  14 M/S                       2         4".
Definition b5157 : text := " 011083 Wind speed                                                       KM/H                       0            0   9 KM/H                      0         3".
Definition b5158 : text := " 011084 Wind speed                                                       KT                         0            0   8 KT                        0         3".
Definition b5159 : text := " 011085 Maximum wind gust speed                                          KM/H                       0            0   9 KM/H                      0         3".
Definition b5160 : text := " 011086 Maximum wind gust speed                                          KT                         0            0   8 KT                        0         3".
Definition b5161 : text := " 011095 u-component of the model wind vector                             M/S                        1        -4096  13 M/S                       1         4".
Definition b5162 : text := " 011096 v-component of the model wind vector                             M/S                        1        -4096  13 M/S                       1         4".
Definition b5163 : text := " 011097 Wind speed from altimeter                                        M/S                        2            0  12 M/S                       2         4".
Definition b5164 : text := " 011098 Wind speed from radiometer                                       M/S                        2            0  12 M/S                       2         4".
Definition b5165 : text := " 011100 True aircraft speed                                              M/S                        1            0  12 M/S                       1         4".
Definition b5166 : text := " 011101 Aircraft velocity u-component                                    M/S                        1        -4096  13 M/S                       1         4".
Definition b5167 : text := " 011102 Aircraft velocity v-component                                    M/S                        1        -4096  13 M/S                       1         4".
Definition b5168 : text := " 011103 Aircraft velocity w-component                                    M/S                        1         -512  10 M/S                       1         4".
Definition b5169 : text := " 011104 Aircraft true heading                                            DEG                        0            0   9 DEG                       0         3".
Definition b5170 : text := " 011105 EDR algorithm version                                            NUMERIC                    0            0   6 NUMERIC                   0         2".
Definition b5171 : text := " 011106 Running minimum confidence                                       NUMERIC                    1            0   4 NUMERIC                   1         2".
Definition b5172 : text := " 011107 Maximum number bad inputs                                        NUMERIC                    0            0   5 NUMERIC                   0         2".
Definition b5173 : text := " 011108 Peak Location                                                    NUMERIC                    1            0   4 NUMERIC                   1         2".
Definition b5174 : text := " 011109 Number of good EDR                                               NUMERIC                    0            0   4 NUMERIC                   0         2".
Definition b5175 : text := " 012001 Temperature/air temperature                                      K                          1            0  12 C                         1         3".
Definition b5176 : text := " 012002 Air temperature                                                  K                          1            0  12 C                         1         3".
Definition b5177 : text := " 012003 Dew-point temperature                                            K                          1            0  12 C                         1         3".
Definition b5178 : text := " 012004 Dry-bulb temperature at 2 m                                      K                          1            0  12 C                         1         3".
Definition b5179 : text := " 012005 Wet-bulb temperature at 2 m                                      K                          1            0  12 C                         1         3".
Definition b5180 : text := " 012006 Dew-point temperature at 2 m                                     K                          1            0  12 C                         1         3".
Definition b5181 : text := " 012007 Virtual temperature                                              K                          1            0  12 C                         1         3".
Definition b5182 : text := " 012011 Maximum temperature, at height and over period specified         K                          1            0  12 C                         1         3".
Definition b5183 : text := " 012012 Minimum temperature, at height and over period specified         K                          1            0  12 C                         1         3".
Definition b5184 : text := " 012013 Ground minimum temperature, past 12 hours                        K                          1            0  12 C                         1         3".
Definition b5185 : text := " 012014 Maximum temperature at 2 m, past 12 hours                        K                          1            0  12 C                         1         3".
Definition b5186 : text := " 012015 Minimum temperature at 2 m, past 12 hours                        K                          1            0  12 C                         1         3".
Definition b5187 : text := " 012016 Maximum temperature at 2 m, past 24 hours                        K                          1            0  12 C                         1         3".
Definition b5188 : text := " 012017 Minimum temperature at 2 m, past 24 hours                        K                          1            0  12 C                         1         3".
Definition b5189 : text := " 012021 Maximum temperature at 2 m                                       K                          2            0  16 C                         2         4".
Definition b5190 : text := " 012022 Minimum temperature at 2 m                                       K                          2            0  16 C                         2         4".
Definition b5191 : text := " 012023 Temperature                                                      C                          0          -99   8 C                         0         2".
Definition b5192 : text := " 012024 Dew point temperature                                            C                          0          -99   8 C                         0         2".
Definition b5193 : text := " 012030 Soil temperature                                                 K                          1            0  12 C                         1         3".
Definition b5194 : text := " 012051 Standard deviation temperature                                   K                          1            0  10 C                         1         3".
Definition b5195 : text := " 012052 Highest daily mean temperature                                   K                          1            0  12 C                         1         3".
Definition b5196 : text := " 012053 Lowest daily mean temperature                                    K                          1            0  12 C                         1         3".
Definition b5197 : text := " 012060 AWS enclosure internal temperature                               K                          1            0  12 C                         1         3".
Definition b5198 : text := " 012061 Skin temperature                                                 K                          1            0  12 C                         1         3".
Definition b5199 : text := " 012062 Equivalent black body temperature                                K                          1            0  12 C                         1         3".
Definition b5200 : text := " 012063 Brightness temperature                                           K                          1            0  12 C                         1         3".
Definition b5201 : text := " 012064 Instrument temperature                                           K                          1            0  12 K                         1         4".
Definition b5202 : text := " 012065 Standard deviation brightness temperature                        K                          1            0  12 K                         1         4".
Definition b5203 : text := " 012066 Antenna temperature                                              K                          2            0  16 C                         2         5".
Definition b5204 : text := " 012070 Warm load temperature                                            K                          2            0  16 K                         2         5".
Definition b5205 : text := " 012071 Coldest cluster temperature                                      K                          1            0  12 K                         1         4".
Definition b5206 : text := " 012072 Radiance                                                         W M-2 SR-1                 6            0  31 W M-2 SR-1                6         9".
Definition b5207 : text := " 012075 Spectral radiance                                                W M-3 SR-1                -3            0  16 W M-3 SR-1               -3         5".
Definition b5208 : text := " 012076 Radiance                                                         W M-2 SR-1                 3            0  16 W M-2 SR-1                3         5".
Definition b5209 : text := " 012080 Brightness temperature real part                                 K                          2       -10000  16 K                         2         5".
Definition b5210 : text := " 012081 Brightness temperature imaginary part                            K                          2       -10000  16 K                         2         5".
Definition b5211 : text := " 012082 Pixel radiometric accuracy                                       K                          2            0  12 K                         2         4".
Definition b5212 : text := " 012101 Temperature/air temperature                                      K                          2            0  16 C                         2         4".
Definition b5213 : text := " 012102 Wet-bulb temperature                                             K                          2            0  16 C                         2         4".
Definition b5214 : text := " 012103 Dew-point temperature                                            K                          2            0  16 C                         2         4".
Definition b5215 : text := " 012104 Air temperature at 2 m                                           K                          2            0  16 C                         2         4".
Definition b5216 : text := " 012105 Web-bulb temperature at 2 m                                      K                          2            0  16 C                         2         4".
Definition b5217 : text := " 012106 Dew-point temperature at 2 m                                     K                          2            0  16 C                         2         4".
Definition b5218 : text := " 012107 Virtual temperature                                              K                          2            0  16 C                         2         4".
Definition b5219 : text := " 012111 Maximum temperature, at height and over period specified         K                          2            0  16 C                         2         4".
Definition b5220 : text := " 012112 Minimum temperature, at height and over period specified         K                          2            0  16 C                         2         4".
Definition b5221 : text := " 012113 Ground minimum temperature, past 12 hours                        K                          2            0  16 C                         2         4".
Definition b5222 : text := " 012114 Maximum temperature at 2 m, past 12 hours                        K                          2            0  16 C                         2         4".
Definition b5223 : text := " 012115 Minimum temperature at 2 m, past 12 hours                        K                          2            0  16 C                         2         4".
Definition b5224 : text := " 012116 Maximum temperature at 2 m, past 24 hours                        K                          2            0  16 C                         2         4".
Definition b5225 : text := " 012117 Minimum temperature at 2 m, past 24 hours                        K                          2            0  16 C                         2         4".
Definition b5226 : text := " 012118 Maximum temperature at height specified, past 24 hours           K                          2            0  16 C                         2         4".
Definition b5227 : text := " 012119 Minimum temperature at height specified, past 24 hours           K                          2            0  16 C                         2         4".
Definition b5228 : text := " 012120 Ground temperature                                               K                          2            0  16 C                         2         4".
Definition b5229 : text := " 012121 Ground minimum temperature                                       K                          2            0  16 C                         2         4".
Definition b5230 : text := " 012122 Ground minimum temperature of the preceding night                K                          2            0  16 C                         2         4".
Definition b5231 : text := " 012130 Soil temperature                                                 K                          2            0  16 C                         2         4".
Definition b5232 : text := " 012131 Snow temperature                                                 K                          2            0  16 C                         2         4".
Definition b5233 : text := " 012132 Ice surface temperature                                          K                          2            0  16 C                         2         4".
Definition b5234 : text := " 012151 Standard deviation of daily mean temperature                     K                          2            0  12 C                         2         4".
Definition b5235 : text := " 012152 Highest daily mean temperature                                   K                          2            0  16 C                         2         4".
Definition b5236 : text := " 012153 Lowest daily mean temperature                                    K                          2            0  16 C                         2         4".
Definition b5237 : text := " 012158 Noise-equivalent delta temperature while viewing cold target     K                          2            0  12 C                         2         4".
Definition b5238 : text := " 012159 Noise-equivalent delta temperature while viewing warm target     K                          2            0  12 C                         2         4".
Definition b5239 : text := " 012161 Skin temperature                                                 K                          2            0  16 C                         2         4".
Definition b5240 : text := " 012162 Equivalent black body temperature                                K                          2            0  16 C                         2         4".
Definition b5241 : text := " 012163 Brightness temperature                                           K                          2            0  16 C                         2         4".
Definition b5242 : text := " 012164 Instrument temperature                                           K                          2            0  16 K                         2         5".
Definition b5243 : text := " 012165 Direct sun brightness temperature                                K                          0            0  23 K                         0         7".
Definition b5244 : text := " 012166 Snapshot accuracy                                                K                          1        -4000  13 K                         1         4".
Definition b5245 : text := " 012167 Radiometric accuracy (pure polarisation)                         K                          1            0   9 K                         1         3".
Definition b5246 : text := " 012168 Radiometric accuracy (cross polarisation)                        K                          1            0   9 K                         1         3".
Definition b5247 : text := " 012171 Coldest cluster temperature                                      K                          2            0  16 K                         2         5".
Definition b5248 : text := " 012180 Averaged 12 micron BT for all clear pixels at nadir              K                          2            0  16 K                         2         5".
Definition b5249 : text := " 012181 Averaged 11 micron BT for all clear pixels at nadir              K                          2            0  16 K                         2         5".
Definition b5250 : text := " 012182 Averaged 3.7 micron BT for all clear pixels at nadir             K                          2            0  16 K                         2         5".
Definition b5251 : text := " 012183 Averaged 12 micron BT for all clear pixels, forward view         K                          2            0  16 K                         2         5".
Definition b5252 : text := " 012184 Averaged 11 micron BT for all clear pixels, forward view         K                          2            0  16 K                         2         5".
Definition b5253 : text := " 012185 Averaged 3.7 micron BT for all clear pixels, forward view        K                          2            0  16 K                         2         5".
Definition b5254 : text := " 012186 Mean nadir sea-surface temperature                               K                          2            0  16 K                         2         5".
Definition b5255 : text := " 012187 Mean dual view sea-surface temperature                           K                          2            0  16 K                         2         5".
Definition b5256 : text := " 012188 Interpolated 23.8 GHz brightness T from MWR                      K                          2            0  16 K                         2         5".
Definition b5257 : text := " 012189 Interpolated 36.5 GHz brightness T from MWR                      K                          2            0  16 K                         2         5".
Definition b5258 : text := " 013001 Specific humidity                                                KG/KG                      5            0  14 KG/KG                     5         5".
Definition b5259 : text := " 013002 Mixing ratio                                                     KG/KG                      5            0  14 KG/KG                     5         5".
Definition b5260 : text := " 013003 Relative humidity                                                %                          0            0   7 %                         0         3".
Definition b5261 : text := " 013004 Vapour pressure                                                  PA                        -1            0  10 PA                       -1         4".
Definition b5262 : text := " 013005 Vapour density                                                   KG M-3                     3            0   7 KG M-3                    3         3".
Definition b5263 : text := " 013006 Mixing heights                                                   M                         -1          -40  16 M                        -1         5".
Definition b5264 : text := " 013007 Minimum relative humidity                                        %                          0            0   7 %                         0         3".
Definition b5265 : text := " 013008 Maximum relative humidity                                        %                          0            0   7 %                         0         3".
Definition b5266 : text := " 013009 Relative humidity                                                %                          1        -1000  12 %                         1         4".
Definition b5267 : text := " 013011 Total precipitation/total water equivalent                       KG M-2                     1           -1  14 KG M-2                    1         5".
Definition b5268 : text := " 013012 Depth of fresh snow                                              M                          2           -2  12 M                         2         4".
Definition b5269 : text := " 013013 Total snow depth                                                 M                          2           -2  16 M                         2         5".
Definition b5270 : text := " 013014 Rainfall/water equivalent of snow (averaged rate)                KG M-2 S-1                 4            0  12 KG M-2 S-1                4         4".
Definition b5271 : text := " 013015 Snowfall (averaged rate)                                         M/S                        7            0  12 M/S                       7         4".
Definition b5272 : text := " 013016 Precipitable water                                               KG M-2                     0            0   7 KG M-2                    0         3".
Definition b5273 : text := " 013019 Total precipitation past 1 hour                                  KG M-2                     1           -1  14 KG M-2                    1         4".
Definition b5274 : text := " 013020 Total precipitation past 3 hours                                 KG M-2                     1           -1  14 KG M-2                    1         5".
Definition b5275 : text := " 013021 Total precipitation past 6 hours                                 KG M-2                     1           -1  14 KG M-2                    1         5".
Definition b5276 : text := " 013022 Total precipitation past 12 hours                                KG M-2                     1           -1  14 KG M-2                    1         5".
Definition b5277 : text := " 013023 Total precipitation past 24 hours                                KG M-2                     1           -1  14 KG M-2                    1         5".
Definition b5278 : text := " 013031 Evapotranspiration                                               KG M-2                     0            0   7 KG M-2                    0         3".
Definition b5279 : text := " 013032 Evaporation/evapotranspiration                                   KG M-2                     1            0   8 KG M-2                    1         3".
Definition b5280 : text := " 013033 Evaporation/evapotranspiration                                   KG M-2                     1            0  10 KG M-2                    1         4".
Definition b5281 : text := " 013038 Superadiabatic indicator                                         CODE TABLE                 0            0   2 CODE TABLE                0         1".
Definition b5282 : text := " 013039 Terrain type (ice/snow)                                          CODE TABLE                 0            0   3 CODE TABLE                0         1".
Definition b5283 : text := " 013040 Surface flag                                                     CODE TABLE                 0            0   4 CODE TABLE                0         2".
Definition b5284 : text := " 013041 Pasquill-Gifford stability category                              CODE TABLE                 0            0   4 CODE TABLE                0         2".
Definition b5285 : text := " 013042 Parcel lifted index (to 500 hPa)                                 K                          0          -20   6 K                         0         2".
Definition b5286 : text := " 013043 Best lifted index (to 500 hPa)                                   K                          0          -20   6 K                         0         2".
Definition b5287 : text := " 013044 K index                                                          K                          0          -30   8 K                         0         3".
Definition b5288 : text := " 013045 KO index                                                         K                          0          -30   8 K                         0         3".
Definition b5289 : text := " 013046 Maximum buoyancy                                                 K                          0          -30   8 K                         0         3".
Definition b5290 : text := " 013047 Modified Showalter stability index                               K                          0          -60   6 C                         0         2".
Definition b5291 : text := " 013048 Water fraction                                                   %                          1            0  10 %                         1         4".
Definition b5292 : text := " 013051 Frequency group, precipitation                                   CODE TABLE                 0            0   4 CODE TABLE                0         2".
Definition b5293 : text := " 013052 Highest daily amount of precipitation                            KG M-2                     1           -1  14 KG M-2                    1         5".
Definition b5294 : text := " 013055 Intensity of precipitation                                       KG M-2 S-1                 4            0   8 MM/H                      1         4".
Definition b5295 : text := " 013056 Character and intensity of precipitation                         CODE TABLE                 0            0   4 CODE TABLE                0         2".
Definition b5296 : text := " 013057 Time of beginning or end of precipitation                        CODE TABLE                 0            0   4 CODE TABLE                0         2".
Definition b5297 : text := " 013058 Size of precipitating element                                    M                          4            0   7 MM                        1         3".
Definition b5298 : text := " 013059 Number of flashes (thunderstorm)                                 NUMERIC                    0            0   7 NUMERIC                   0         3".
Definition b5299 : text := " 013060 Total accumulated precipitation                                  KG M-2                     1           -1  17 KG M-2                    1         5".
Definition b5300 : text := " 013071 Upstream water level                                             M                          2            0  14 M                         2         4".
Definition b5301 : text := " 013072 Downstream water level                                           M                          2            0  14 M                         2         4".
Definition b5302 : text := " 013073 Maximum water level                                              M                          2            0  14 M                         2         4".
Definition b5303 : text := " 013074 Ground water level                                               M                          2            0  18 M                         2         6".
Definition b5304 : text := " 013080 Water pH                                                         PH UNIT                    1            0  10 PH UNIT                   1         3".
Definition b5305 : text := " 013081 Water conductivity                                               S/M                        3            0  14 S/M                       3         4".
Definition b5306 : text := " 013082 Water temperature                                                K                          1            0  12 K                         1         4".
Definition b5307 : text := " 013083 Dissolved oxygen                                                 KG M-3                     6            0  15 KG M-3                    6         5".
Definition b5308 : text := " 013084 Turbidity                                                        LM                         0            0  14 LM                        0         4".
Definition b5309 : text := " 013085 Oxydation reduction potential (ORP)                              V                          3            0  14 V                         3         4".
Definition b5310 : text := " 013090 Radiometer water vapour content                                  KG M-2                     1            0  10 KG M-2                    1         4".
Definition b5311 : text := " 013091 Radiometer liquid content                                        KG M-2                     2            0   8 KG M-2                    2         3".
Definition b5312 : text := " 013093 Cloud optical thickness                                          NUMERIC                    0            0   8 NUMERIC                   0         3".
Definition b5313 : text := " 013095 Total column water vapour                                        KG M-2                     4            0  19 KG M-2                    4         6".
Definition b5314 : text := " 013096 MWR water vapour content                                         KG M-2                     2            0  14 KG M-2                    2         5".
Definition b5315 : text := " 013097 MWR liquid water content                                         KG M-2                     2            0  14 KG M-2                    2         5".
Definition b5316 : text := " 013098 Integrated water vapour density                                  KG M-2                     8            0  30 KG M-2                    8        10".
Definition b5317 : text := " 013110 Mass mixing ratio                                                %                          0            0   7 %                         0         3".
Definition b5318 : text := " 013111 Soil moisture                                                    G/KG                       0            0  10 G/KG                      0         4".
Definition b5319 : text := " 013112 Object wetness duration                                          S                          0            0  17 S                         0         5".
Definition b5320 : text := " 013114 Rate of ice accretion                                            KG M-2 H-1                 1            0  11 KG M-2 H-1                1         4".
Definition b5321 : text := " 013115 Ice thickness                                                    M                          2            0  19 M                         2         6".
Definition b5322 : text := " 013117 Snow density (liquid water content)                              KG M-3                     0            0  10 KG M-3                    0         3".
Definition b5323 : text := " 013118 Depth of fresh snow (high accuracy)                              M                          3            0  14 M                         3         5".
Definition b5324 : text := " 013155 Intensity of precipitation (high accuracy)                       KG M-2 S-1                 5           -1  16 MM/H                      1         5".
Definition b5325 : text := " 014001 Long-wave radiation, integrated over 24 hours                    J M-2                     -3       -65536  17 J M-2                    -3         5".
Definition b5326 : text := " 014002 Long-wave radiation, integrated over period specified            J M-2                     -3       -65536  17 J M-2                    -3         5".
Definition b5327 : text := " 014003 Short-wave radiation, integrated over 24 hours                   J M-2                     -3       -65536  17 J M-2                    -3         5".
Definition b5328 : text := " 014004 Short-wave radiation, integrated over period specified           J M-2                     -3       -65536  17 J M-2                    -3         5".
Definition b5329 : text := " 014011 Net long-wave radiation, integrated over 24 hours                J M-2                     -3       -65536  17 J M-2                    -3         5".
Definition b5330 : text := " 014012 Net long-wave radiation, integrated over period specified        J M-2                     -3       -65536  17 J M-2                    -3         5".
Definition b5331 : text := " 014013 Net short-wave radiation, integrated over 24 hours               J M-2                     -3       -65536  17 J M-2                    -3         5".
Definition b5332 : text := " 014014 Net short-wave radiation, integrated over period specified       J M-2                     -3       -65536  17 J M-2                    -3         5".
Definition b5333 : text := " 014015 Net radiation, integrated over 24 hours                          J M-2                     -4       -16384  15 J M-2                    -4         5".
Definition b5334 : text := " 014016 Net radiation, integrated over period specified                  J M-2                     -4       -16384  15 J M-2                    -4         5".
Definition b5335 : text := " 014017 Instantaneous long-wave radiation                                W M-2                      0         -512  10 W M-2                     0         4".
Definition b5336 : text := " 014018 Instantaneous short-wave radiation                               W M-2                      0        -2048  12 W M-2                     0         4".
Definition b5337 : text := " 014019 Surface albedo                                                   %                          0            0   7 %                         0         3".
Definition b5338 : text := " 014020 Global solar radiation, integrated over 24 hours                 J M-2                     -4            0  15 J M-2                    -4         5".
Definition b5339 : text := " 014021 Global solar radiation, integrated over period specified         J M-2                     -4            0  15 J M-2                    -4         5".
Definition b5340 : text := " 014022 Diffuse solar radiation, integrated over 24 hours                J M-2                     -4            0  15 J M-2                    -4         5".
Definition b5341 : text := " 014023 Diffuse solar radiation, integrated over period specified        J M-2                     -4            0  15 J M-2                    -4         5".
Definition b5342 : text := " 014024 Direct solar radiation, integrated over 24 hours                 J M-2                     -4            0  15 J M-2                    -4         5".
Definition b5343 : text := " 014025 Direct solar radiation, integrated over period specified         J M-2                     -4            0  15 J M-2                    -4         5".
Definition b5344 : text := " 014026 Albedo at the top of clouds                                      %                          0            0   7 %                         0         3".
Definition b5345 : text := " 014027 Albedo                                                           %                          0            0   7 %                         0         3".
Definition b5346 : text := " 014028 Global solar radiation (high accuracy), integrated over period s J M-2                     -2            0  20 J M-2                    -2         6".
Definition b5347 : text := " 014029 Diffuse solar radiation (high accuracy), integrated over period  J M-2                     -2            0  20 J M-2                    -2         6".
Definition b5348 : text := " 014030 Direct solar radiation (high accuracy), integrated over period s J M-2                     -2            0  20 J M-2                    -2         6".
Definition b5349 : text := " 014031 Total sunshine                                                   MIN                        0            0  11 MIN                       0         4".
Definition b5350 : text := " 014032 Total sunshine                                                   H                          0            0  10 H                         0         4".
Definition b5351 : text := " 014033 Total sunshine                                                   %                          0            0   9 %                         0         3".
Definition b5352 : text := " 014034 Sunshine over period specified                                   MIN                        0            0  11 MIN                       0         4".
Definition b5353 : text := " 014035 Solar Radiation Flux                                             W M-2                      1            0  14 W M-2                     1         5".
Definition b5354 : text := " 014042 Bidirectional reflectance                                        %                          0            0   7 %                         0         3".
Definition b5355 : text := " 014043 Channel radiance                                                 W M-2 SR-1 UM-1            4            0  23 W M-2 SR-1 UM-1           4         7".
Definition b5356 : text := " 014044 Channel radiance                                                 W M-2 SR-1 CM              7      -100000  22 W M-2 SR-1 CM             7         7".
Definition b5357 : text := " 014045 Channel radiance                                                 W M-2 SR-1 CM              0            0  11 W M-2 SR-1 CM             0         4".
Definition b5358 : text := " 014046 Scaled IASI radiance                                             W M-2 SR-1 M               0        -5000  16 W M-2 SR-1 M              0         5".
Definition b5359 : text := " 014047 Scaled mean AVHRR radiance                                       W M-2 SR-1 M               0            0  31 W M-2 SR-1 M              0        10".
Definition b5360 : text := " 014048 Scaled standard deviation AVHRR radiance                         W M-2 SR-1 M               0            0  31 W M-2 SR-1 M              0        10".
Definition b5361 : text := " 014050 Emissivity                                                       %                          1            0  10 %                         1         4".
Definition b5362 : text := " 014051 Direct solar radiation integrated over last hour                 J M-2                     -3            0  14 J M-2                    -3         4".
Definition b5363 : text := " 014052 Global upward solar radiation, integrated over period specified  J M-2                     -2     -1048574  20 J M-2                    -2         7".
Definition b5364 : text := " 014053 Net radiation (high accuracy), integrated over period specified  J M-2                     -2     -1048574  21 J M-2                    -2         7".
Definition b5365 : text := " 014054 Photosyntetically active radiation, integrated over period speci J M-2                     -3            0  16 J M-2                    -3         5".
Definition b5366 : text := " 014055 Solar activity index                                             NUMERIC                    0       -32768  16 NUMERIC                   0         5".
Definition b5367 : text := " 014056 Background luminance                                             CD M-2                     0            0  18 CD M-2                    0         6".
Definition b5368 : text := " 014057 Soil heat flux                                                   J M-2                     -1        -1000  11 J M-2                    -1         4".
Definition b5369 : text := " 014071 Global UV spectral irradiance                                    W M-2 NM-1                 6     -1048576  21 W M-2 NM-1                6         7".
Definition b5370 : text := " 014072 Global UV irradiation                                            J M-2                      0     -4000000  23 J M-2                     0         7".
Definition b5371 : text := " 014073 Global erythemal irradiation                                     J M-2                     -3          -32   6 J M-2                    -3         2".
Definition b5372 : text := " 015001 Total ozone                                                      DU                         0            0  10 DU                        0         4".
Definition b5373 : text := " 015002 Air mass (slant path at 22 km)                                   NUMERIC                    2            0  10 NUMERIC                   2         3".
Definition b5374 : text := " 015003 Measured ozone partial pressure (sounding)                       PA                         4            0   9 NBAR                      0         3".
Definition b5375 : text := " 015004 Ozone sounding correction factor (CF)                            NUMERIC                    3            0  11 NUMERIC                   3         4".
Definition b5376 : text := " 015005 Ozone p                                                          DU                         0            0  10 DU                        0         3".
Definition b5377 : text := " 015007 Molecular mass                                                   U                          2            0  15 U                         2         5".
Definition b5378 : text := " 015008 Significand of volumetric mixing ratio                           NUMERIC                    0            0  10 NUMERIC                   0         4".
Definition b5379 : text := " 015009 Integrated number density                                        M-2                        0            0  10 M-2                       0         4".
Definition b5380 : text := " 015010 Partial pressure                                                 PA                         0            0  10 PA                        0         4".
Definition b5381 : text := " 015011 Log 10 of integrated electron density                            LOG (M-2)                  3        14000  13 LOG (M-2)                 3         4".
Definition b5382 : text := " 015012 Total electron count per square metre                            M-2                      -16            0   6 M-2                      -16         2".
Definition b5383 : text := " 015015 Maximum image spectral component before normalization            NUMERIC                    0            0  31 NUMERIC                   0        10".
Definition b5384 : text := " 015020 Integrated ozone density                                         KG M-2                     8            0  21 KG M-2                    8         7".
Definition b5385 : text := " 015021 Integrated mass density                                          KG M-2                    11            0  31 KG M-2                   11        10".
Definition b5386 : text := " 015022 Integrated number density                                        M-3                        0            0  10 M-3                       0         4".
Definition b5387 : text := " 015023 Mass density                                                     KG M-3                     0            0  10 KG M-3                    0         4".
Definition b5388 : text := " 015024 Optical depth                                                    NUMERIC                    4            0  24 NUMERIC                   4         8".
Definition b5389 : text := " 015025 Type of pollutant                                                CODE TABLE                 0            0   4 CODE TABLE                0         2".
Definition b5390 : text := " 015026 Concentration of pollutant (mol mol-1)                           MOL/MOL                    9            0   9 MOL/MOL                   9         3".
Definition b5391 : text := " 015027 Concentration of pollutant (kg m-3)                              KG M-3                     9            0  10 KG M-3                    9         4".
Definition b5392 : text := " 015028 Photo dissociation rate                                          /S                         0            0  10 /S                        0         4".
Definition b5393 : text := " 015029 Extinction coefficient                                           M-1                        9            0  30 M-1                       9        10".
Definition b5394 : text := " 015030 Aerosol contamination index                                      NUMERIC                    2        -1000  12 NUMERIC                   2         4".
Definition b5395 : text := " 015031 Atmospheric path delay in satellite signal                       M                          4        10000  15 M                         4         5".
Definition b5396 : text := " 015032 Estimated error in atmospheric path delay                        M                          4            0  10 M                         4         4".
Definition b5397 : text := " 015033 Difference in path delays for limb views at extremes of scan     M                          5       -10000  15 M                         5         5".
Definition b5398 : text := " 015034 Estimated error in path delay difference                         M                          5            0  14 M                         5         5".
Definition b5399 : text := " 015035 Component of zenith path delay due to water vapour               M                          4            0  14 M                         4         5".
Definition b5400 : text := " 015036 Atmospheric refractivity                                         N UNITS                    3            0  19 N UNITS                   3         6".
Definition b5401 : text := " 015037 Bending angle                                                    RAD                        8      -100000  23 RAD                       8         7".
Definition b5402 : text := " 015040 Particulate matter diameter                                      M                          8            0   9 M                         8         3".
Definition b5403 : text := " 015042 Reflectance                                                      %                          2            0  14 %                         2         5".
Definition b5404 : text := " 015043 Number of averaging kernel layers                                NUMERIC                    0            0  10 NUMERIC                   0         4".
Definition b5405 : text := " 015044 Averaging kernel value                                           NUMERIC                    6     -5000000  24 NUMERIC                   6         8".
Definition b5406 : text := " 015051 Meteorological Optical Range                                     M                          0            0  18 M                         0         6".
Definition b5407 : text := " 019001 Type of synoptic feature                                         CODE TABLE                 0            0   6 CODE TABLE                0         2".
Definition b5408 : text := " 019002 Effective radius of feature                                      M                         -2            0  12 M                        -2         4".
Definition b5409 : text := " 019003 Wind speed threshold                                             M/S                        0            0   8 M/S                       0         3".
Definition b5410 : text := " 019004 Effective radius with respect to wind speeds above threshold     M                         -2            0  12 M                        -2         4".
Definition b5411 : text := " 019005 Direction of motion of feature (degree true)                     DEG                        0            0   9 DEG                       0         3".
Definition b5412 : text := " 019006 Speed of motion of feature                                       M/S                        2            0  14 M/S                       2         5".
Definition b5413 : text := " 019007 Effective radius of feature                                      M                         -3            0  12 M                        -3         4".
Definition b5414 : text := " 019008 Vertical extent of circulation                                   CODE TABLE                 0            0   3 CODE TABLE                0         1".
Definition b5415 : text := " 019009 Effective radius with respect to wind speeds above threshold (la M                         -3            0  12 M                        -3         4".
Definition b5416 : text := " 019010 Method for tracking the centre of synoptic feature               CODE TABLE                 0            0   4 CODE TABLE                0         2".
Definition b5417 : text := " 019100 Time interval to calculate the movement of the tropical cyclone  CODE TABLE                 0            0   4 CODE TABLE                0         2".
Definition b5418 : text := " 019101 Accuracy of the position of the centre of the tropical cyclone   CODE TABLE                 0            0   4 CODE TABLE                0         2".
Definition b5419 : text := " 019102 Shape and definition of the eye of the tropical cyclone          CODE TABLE                 0            0   3 CODE TABLE                0         1".
Definition b5420 : text := " 019103 Diameter of major axis of the eye of the tropical cyclone        CODE TABLE                 0            0   4 CODE TABLE                0         2".
Definition b5421 : text := " 019104 Change in character of the eye during the 30 minutes             CODE TABLE                 0            0   4 CODE TABLE                0         2".
Definition b5422 : text := " 019105 Distance between the end of spiral band and the centre           CODE TABLE                 0            0   4 CODE TABLE                0         2".
Definition b5423 : text := " 019106 Identification number of tropical cyclone                        NUMERIC                    0            0   7 NUMERIC                   0         3".
Definition b5424 : text := " 019107 Time interval over which the movement of the tropical cyclone ha CODE TABLE                 0            0   4 CODE TABLE                0         2".
Definition b5425 : text := " 019108 Accuracy of geographical position of the tropical cyclone        CODE TABLE                 0            0   3 CODE TABLE                0         1".
Definition b5426 : text := " 019109 Mean diameter of the overcast cloud of the tropical cyclone      CODE TABLE                 0            0   4 CODE TABLE                0         2".
Definition b5427 : text := " 019110 Apparent 24-hour change in intensity of the tropical cyclone     CODE TABLE                 0            0   4 CODE TABLE                0         2".
Definition b5428 : text := " 019111 Current Intensity (CI) number of the tropical cyclone            NUMERIC                    1            0   7 NUMERIC                   1         3".
Definition b5429 : text := " 019112 Data Tropical (DT) number of the tropical cyclone                NUMERIC                    1            0   7 NUMERIC                   1         3".
Definition b5430 : text := " 019113 Cloud pattern type of the DT-number                              CODE TABLE                 0            0   4 CODE TABLE                0         2".
Definition b5431 : text := " 019114 Model Expected Tropical (MET) number of the tropical cyclone     NUMERIC                    1            0   7 NUMERIC                   1         3".
Definition b5432 : text := " 019115 Trend of the past 24-hour change (+: Developed, -: Weakened)     NUMERIC                    1          -30   6 NUMERIC                   1         2".
Definition b5433 : text := " 019116 Pattern Tropical (PT) number of the tropical cyclone             NUMERIC                    1            0   7 NUMERIC                   1         3".
Definition b5434 : text := " 019117 Cloud picture type of the PT-number                              CODE TABLE                 0            0   3 CODE TABLE                0         1".
Definition b5435 : text := " 019118 Final Tropical (T) number of the tropical cyclone                NUMERIC                    1            0   7 NUMERIC                   1         3".
Definition b5436 : text := " 019119 Type of the final T-number                                       CODE TABLE                 0            0   3 CODE TABLE                0         1".
Definition b5437 : text := " 019150 Typhoon International Common Number (Typhoon Committee)          CCITTIA5                   0            0  32 CHARACTER                 0         4".
Definition b5438 : text := " 020001 Horizontal visibility                                            M                         -1            0  13 M                        -1         4".
Definition b5439 : text := " 020002 Vertical visibility                                              M                         -1            0   7 M                        -1         3".
Definition b5440 : text := " 020003 Present weather                                                  CODE TABLE                 0            0   9 CODE TABLE                0         3".
Definition b5441 : text := " 020004 Past weather (1)                                                 CODE TABLE                 0            0   5 CODE TABLE                0         2".
Definition b5442 : text := " 020005 Past weather (2)                                                 CODE TABLE                 0            0   5 CODE TABLE                0         2".
Definition b5443 : text := " 020006 Flight rules                                                     CODE TABLE                 0            0   3 CODE TABLE                0         1".
Definition b5444 : text := " 020008 Cloud distribution for aviation                                  CODE TABLE                 0            0   5 CODE TABLE                0         2".
Definition b5445 : text := " 020009 General weather indicator (TAF/METAR)                            CODE TABLE                 0            0   4 CODE TABLE                0         2".
Definition b5446 : text := " 020010 Cloud cover (total)                                              %                          0            0   7 %                         0         3".
Definition b5447 : text := " 020011 Cloud amount                                                     CODE TABLE                 0            0   4 CODE TABLE                0         2".
Definition b5448 : text := " 020012 Cloud type                                                       CODE TABLE                 0            0   6 CODE TABLE                0         2".
Definition b5449 : text := " 020013 Height of base of cloud                                          M                         -1          -40  11 M                        -1         4".
Definition b5450 : text := " 020014 Height of top of cloud                                           M                         -1          -40  11 M                        -1         4".
Definition b5451 : text := " 020015 Pressure at base of cloud                                        PA                        -1            0  14 PA                       -1         5".
Definition b5452 : text := " 020016 Pressure at top of cloud                                         PA                        -1            0  14 PA                       -1         5".
Definition b5453 : text := " 020017 Cloud top description                                            CODE TABLE                 0            0   4 CODE TABLE                0         2".
Definition b5454 : text := " 020018 Tendency of runway visual range                                  CODE TABLE                 0            0   2 CODE TABLE                0         1".
Definition b5455 : text := " 020019 Significant present or forecast weather                          CCITTIA5                   0            0  72 CHARACTER                 0         9".
Definition b5456 : text := " 020020 Significant recent weather phenomena                             CCITTIA5                   0            0  32 CHARACTER                 0         4".
Definition b5457 : text := " 020021 Type of precipitation                                            FLAG TABLE                 0            0  30 FLAG TABLE                0        10".
Definition b5458 : text := " 020022 Character of precipitation                                       CODE TABLE                 0            0   4 CODE TABLE                0         2".
Definition b5459 : text := " 020023 Other weather phenomena                                          FLAG TABLE                 0            0  18 FLAG TABLE                0         6".
Definition b5460 : text := " 020024 Intensity of phenomena                                           CODE TABLE                 0            0   3 CODE TABLE                0         1".
Definition b5461 : text := " 020025 Obscuration                                                      FLAG TABLE                 0            0  21 FLAG TABLE                0         7".
Definition b5462 : text := " 020026 Character of obscuration                                         CODE TABLE                 0            0   4 CODE TABLE                0         2".
Definition b5463 : text := " 020027 Phenomena occurrence                                             FLAG TABLE                 0            0   9 FLAG TABLE                0         3".
Definition b5464 : text := " 020028 Expected change in intensity                                     CODE TABLE                 0            0   3 CODE TABLE                0         1".
Definition b5465 : text := " 020029 Rain flag                                                        CODE TABLE                 0            0   2 CODE TABLE                0         1".
Definition b5466 : text := " 020031 Ice deposit (thickness)                                          M                          2            0   7 M                         2         3".
Definition b5467 : text := " 020032 Rate of ice accretion                                            CODE TABLE                 0            0   3 CODE TABLE                0         1".
Definition b5468 : text := " 020033 Cause of ice accretion                                           FLAG TABLE                 0            0   4 FLAG TABLE                0         2".
Definition b5469 : text := " 020034 Sea ice concentration                                            CODE TABLE                 0            0   5 CODE TABLE                0         2".
Definition b5470 : text := " 020035 Amount and type of ice                                           CODE TABLE                 0            0   4 CODE TABLE                0         2".
Definition b5471 : text := " 020036 Ice situation                                                    CODE TABLE                 0            0   5 CODE TABLE                0         2".
Definition b5472 : text := " 020037 Ice development                                                  CODE TABLE                 0            0   5 CODE TABLE                0         2".
Definition b5473 : text := " 020038 Bearing of ice edge (degree true)                                DEG                        0            0  12 DEG                       0         3".
Definition b5474 : text := " 020039 Ice distance                                                     M                         -1            0  13 M                        -1         4".
Definition b5475 : text := " 020040 Evolution of drift snow                                          CODE TABLE                 0            0   4 CODE TABLE                0         2".
Definition b5476 : text := " 020041 Airframe icing                                                   CODE TABLE                 0            0   4 CODE TABLE                0         2".
Definition b5477 : text := " 020042 Airframe icing present                                           CODE TABLE                 0            0   2 CODE TABLE                0         1".
Definition b5478 : text := " 020043 Peak liquid water content                                        KG M-3                     4            0   7 KG M-3                    4         2".
Definition b5479 : text := " 020044 Average liquid water content                                     KG M-3                     4            0   7 KG M-3                    4         2".
Definition b5480 : text := " 020045 Supercooled large droplet (SLD) conditions                       CODE TABLE                 0            0   2 CODE TABLE                0         1".
Definition b5481 : text := " 020048 Evolution of feature                                             CODE TABLE                 0            0   4 CODE TABLE                0         2".
Definition b5482 : text := " 020050 Cloud index                                                      CODE TABLE                 0            0   8 CODE TABLE                0         3".
Definition b5483 : text := " 020051 Amount of low clouds                                             %                          0            0   7 %                         0         3".
Definition b5484 : text := " 020052 Amount of middle clouds                                          %                          0            0   7 %                         0         3".
Definition b5485 : text := " 020053 Amount of high clouds                                            %                          0            0   7 %                         0         3".
Definition b5486 : text := " 020054 True direction from which a phenomenon or clouds are moving (deg DEG                        0            0   9 DEG                       0         3".
Definition b5487 : text := " 020055 State of sky in the tropics                                      CODE TABLE                 0            0   4 CODE TABLE                0         2".
Definition b5488 : text := " 020056 Cloud phase                                                      CODE TABLE                 0            0   3 CODE TABLE                0         1".
Definition b5489 : text := " 020058 Visibility seawards from a coastal station                       M                         -1            0  13 M                        -1         4".
Definition b5490 : text := " 020059 Minimum horizontal visibility                                    M                         -1            0   9 M                        -1         3".
Definition b5491 : text := " 020060 Prevailing horizontal visibility                                 M                         -1            0  10 M                        -1         4".
Definition b5492 : text := " 020061 Runway visual range (RVR)                                        M                          0            0  12 M                         0         4".
Definition b5493 : text := " 020062 State of the ground (with or without snow)                       CODE TABLE                 0            0   5 CODE TABLE                0         2".
Definition b5494 : text := " 020063 Special phenomena                                                CODE TABLE                 0            0  10 CODE TABLE                0         4".
Definition b5495 : text := " 020065 Snow cover                                                       %                          0            0   7 %                         0         3".
Definition b5496 : text := " 020066 Maximum diameter of hailstones                                   M                          3            0   8 M                         3         3".
Definition b5497 : text := " 020067 Diameter of deposit                                              M                          3            0   9 M                         3         3".
Definition b5498 : text := " 020070 Minimum number of atmospherics                                   NUMERIC                    0            0   7 NUMERIC                   0         3".
Definition b5499 : text := " 020071 Accuracy of fix and rate of atmospherics                         CODE TABLE                 0            0   4 CODE TABLE                0         2".
Definition b5500 : text := " 020079 Snow/Ice crystals indicator                                      FLAG TABLE                 0            0   2 FLAG TABLE                0         1".
Definition b5501 : text := " 020080 Cloud amount percentage interval                                 CODE TABLE                 0            0   3 CODE TABLE                0         1".
Definition b5502 : text := " 020081 Cloud amount in segment                                          %                          0            0   7 %                         0         3".
Definition b5503 : text := " 020082 Amount segment cloud free                                        %                          0            0   7 %                         0         3".
Definition b5504 : text := " 020083 Amount of segment covered by scene                               %                          0            0   7 %                         0         3".
Definition b5505 : text := " 020085 General condition of runway                                      CODE TABLE                 0            0   4 CODE TABLE                0         1".
Definition b5506 : text := " 020086 Runway deposits                                                  CODE TABLE                 0            0   4 CODE TABLE                0         1".
Definition b5507 : text := " 020087 Runway contamination                                             CODE TABLE                 0            0   4 CODE TABLE                0         1".
Definition b5508 : text := " 020088 Depth of runway deposits                                         M                          3            0  12 M                         0         4".
Definition b5509 : text := " 020089 Runway friction coefficient                                      CODE TABLE                 0            0   7 CODE TABLE                0         2".
Definition b5510 : text := " 020090 Special clouds                                                   CODE TABLE                 0            0   4 CODE TABLE                0         2".
Definition b5511 : text := " 020091 Vertical visibility                                              FT                        -2            0  10 FT                       -2         3".
Definition b5512 : text := " 020092 Height of base of cloud                                          FT                        -2            0  10 FT                       -2         3".
Definition b5513 : text := " 020093 Height of inversion                                              M                         -1            0   8 M                        -1         3".
Definition b5514 : text := " 020095 Ice probability                                                  NUMERIC                    3            0  10 NUMERIC                   3         4".
Definition b5515 : text := " 020096 Ice age (""A"" parameter)                                          DB                         2        -4096  13 DB                        2         4".
Definition b5516 : text := " 020101 Locust (acridian) name                                           CODE TABLE                 0            0   4 CODE TABLE                0         2".
Definition b5517 : text := " 020102 Locust (maturity) colour                                         CODE TABLE                 0            0   4 CODE TABLE                0         2".
Definition b5518 : text := " 020103 Stage of development of locusts                                  CODE TABLE                 0            0   4 CODE TABLE                0         2".
Definition b5519 : text := " 020104 Organization state of swarm or band of locusts                   CODE TABLE                 0            0   4 CODE TABLE                0         2".
Definition b5520 : text := " 020105 Size of swarm or band of locusts and duration of passage of swar CODE TABLE                 0            0   4 CODE TABLE                0         2".
Definition b5521 : text := " 020106 Locust population density                                        CODE TABLE                 0            0   4 CODE TABLE                0         2".
Definition b5522 : text := " 020107 Direction of movements of locust swarm                           CODE TABLE                 0            0   4 CODE TABLE                0         2".
Definition b5523 : text := " 020108 Extent of vegetation                                             CODE TABLE                 0            0   4 CODE TABLE                0         2".
Definition b5524 : text := " 020111 x-axis error ellipse major component                             M                         -1            0  17 M                        -1         6".
Definition b5525 : text := " 020112 y-axis error ellipse minor component                             M                         -1            0  17 M                        -1         6".
Definition b5526 : text := " 020113 z-axis  error ellipse component                                  M                         -1            0  17 M                        -1         6".
Definition b5527 : text := " 020114 Angle of x-axis in error ellipse                                 DEG                        2       -18000  16 DEG                       2         5".
Definition b5528 : text := " 020115 Angle of z-axis in error ellipse                                 DEG                        2       -18000  16 DEG                       2         5".
Definition b5529 : text := " 020116 Emission height of cloud stroke                                  M                          0            0  16 M                         0         5".
Definition b5530 : text := " 020117 Amplitude of lightning strike                                    A                         -1       -32000  16 A                        -1         5".
Definition b5531 : text := " 020118 Lightning detection error                                        M                          0            0  19 M                         0         6".
Definition b5532 : text := " 020119 Lightning discharge polarity                                     CODE TABLE                 0            0   2 CODE TABLE                0         1".
Definition b5533 : text := " 020121 Threshold value for polarity decision                            V                          3            0  16 V                         3         5".
Definition b5534 : text := " 020122 Threshold value for polarity decision                            A                          0            0  16 A                         0         5".
Definition b5535 : text := " 020123 Minimum threshold for detection                                  V M-1                      3            0  16 V M-1                     3         5".
Definition b5536 : text := " 020124 Lightning stroke or flash                                        CODE TABLE                 0            0   2 CODE TABLE                0         1".
Definition b5537 : text := " 020126 Lightning rates of discharge                                     H-1                        0            0  23 H-1                       0         7".
Definition b5538 : text := " 020127 Lightning - distance from station                                M                         -3            0   8 M                        -3         3".
Definition b5539 : text := " 020128 Lightning - direction from station (degree true)                 DEG                        1            0  12 DEG                       1         4".
Definition b5540 : text := " 020130 Cloud hydrometeor concentration                                  NUMERIC                    0            0  10 NUMERIC                   0         3".
Definition b5541 : text := " 020131 Effective radius of cloud hydrometeors                           M                          5            0   6 M                         5         2".
Definition b5542 : text := " 020132 Cloud liquid water content                                       KG M-3                     5            0  11 KG M-3                    5         4".
Definition b5543 : text := " 020133 Hydrometeor radius                                               M                          5            0   6 M                         5         2".
Definition b5544 : text := " 020135 Ice mass (on a rod)                                              KG/M                       1            0  10 KG/M                      1         3".
Definition b5545 : text := " 020136 Supplementary cloud type                                         CODE TABLE                 0            0   9 CODE TABLE                0         3".
Definition b5546 : text := " 020137 Evolution of clouds                                              CODE TABLE                 0            0   4 CODE TABLE                0         2".
Definition b5547 : text := " 021001 Horizontal reflectivity                                          DB                         0          -64   7 DB                        0         3".
Definition b5548 : text := " 021002 Vertical reflectivity                                            DB                         0          -64   7 DB                        0         3".
Definition b5549 : text := " 021003 Differential reflectivity                                        DB                         1           -5   7 DB                        1         3".
Definition b5550 : text := " 021005 Linear depolarization ratio                                      DB                         0          -65   6 DB                        0         2".
Definition b5551 : text := " 021006 Circular depolarization ratio                                    DB                         0          -65   6 DB                        0         2".
Definition b5552 : text := " 021011 Doppler mean velocity in x-direction                             M/S                        0         -128   8 M/S                       0         3".
Definition b5553 : text := " 021012 Doppler mean velocity in y-direction                             M/S                        0         -128   8 M/S                       0         3".
Definition b5554 : text := " 021013 Doppler mean velocity in z-direction                             M/S                        0         -128   8 M/S                       0         3".
Definition b5555 : text := " 021014 Doppler mean velocity (radial)                                   M/S                        1        -4096  13 M/S                       1         4".
Definition b5556 : text := " 021017 Doppler velocity spectral width                                  M/S                        1            0   8 M/S                       1         3".
Definition b5557 : text := " 021018 Extended NYQUIST velocity                                        M/S                        1            0  10 M/S                       1         4".
Definition b5558 : text := " 021019 High NYQUIST velocity                                            M/S                        1            0  10 M/S                       1         3".
Definition b5559 : text := " 021021 Echo tops                                                        M                         -3            0   4 M                        -3         2".
Definition b5560 : text := " 021022 Range bin offset                                                 M                          1            0  14 M                         1         5".
Definition b5561 : text := " 021023 Range bin size                                                   M                          0            0  14 M                         0         5".
Definition b5562 : text := " 021024 Azimuth offset                                                   DEG                        1            0  12 DEG                       1         4".
Definition b5563 : text := " 021025 Azimuthal resolution                                             DEG                        1            0   8 DEG                       1         3".
Definition b5564 : text := " 021030 Signal to noise ratio                                            DB                         0          -32   8 DB                        0         3".
Definition b5565 : text := " 021031 Vertically-integrated liquid-water content                       KG M-2                     0            0   7 KG M-2                    0         3".
Definition b5566 : text := " 021036 Radar rainfall intensity                                         M/S                        7            0  12 M/S                       7         4".
Definition b5567 : text := " 021041 Bright-band height                                               M                         -2            0   8 M                        -2         3".
Definition b5568 : text := " 021051 Signal power above 1 mW                                          DB                         0         -256   8 DB                        0         3".
Definition b5569 : text := " 021062 Backscatter                                                      DB                         2        -5000  13 DB                        2         4".
Definition b5570 : text := " 021063 Radiometric resolution (noise value)                             %                          1            0  10 %                         1         4".
Definition b5571 : text := " 021064 Clutter noise estimate                                           NUMERIC                    0            0   8 NUMERIC                   0         3".
Definition b5572 : text := " 021065 Missing packet counter                                           NUMERIC                    0         -127   8 NUMERIC                   0         3".
Definition b5573 : text := " 021066 Wave scatterometer product confidence data                       FLAG TABLE                 0            0  12 FLAG TABLE                0         4".
Definition b5574 : text := " 021067 Wind product confidence data                                     FLAG TABLE                 0            0  13 FLAG TABLE                0         5".
Definition b5575 : text := " 021068 Radar altimeter product confidence data                          FLAG TABLE                 0            0   8 FLAG TABLE                0         3".
Definition b5576 : text := " 021069 SST product confidence data                                      FLAG TABLE                 0            0  10 FLAG TABLE                0         4".
Definition b5577 : text := " 021070 SST product confidence data (SADIST-2)                           FLAG TABLE                 0            0  23 FLAG TABLE                0         6".
Definition b5578 : text := " 021071 Peakiness                                                        NUMERIC                    0            0  16 NUMERIC                   0         5".
Definition b5579 : text := " 021072 Satellite altimeter calibration status                           FLAG TABLE                 0            0   4 FLAG TABLE                0         2".
Definition b5580 : text := " 021073 Satellite altimeter instrument mode                              FLAG TABLE                 0            0   9 FLAG TABLE                0         3".
Definition b5581 : text := " 021075 Image spectrum intensity                                         NUMERIC                    0            0   8 NUMERIC                   0         3".
Definition b5582 : text := " 021076 Representation of intensities                                    CODE TABLE                 0            0   3 CODE TABLE                0         1".
Definition b5583 : text := " 021077 Altitude correction (ionosphere)                                 M                          3            0  14 M                         3         5".
Definition b5584 : text := " 021078 Altitude correction (dry troposphere)                            M                          3            0   9 M                         3         3".
Definition b5585 : text := " 021079 Altitude correction (wet troposphere)                            M                          3         2000  10 M                         3         4".
Definition b5586 : text := " 021080 Altitude correction (calibration constant)                       M                          3            0  11 M                         3         4".
Definition b5587 : text := " 021081 Open loop correction (height-time loop)                          M                          3            0  10 M                         3         4".
Definition b5588 : text := " 021082 Open loop correction (auto gain control)                         DB                         3        -3000  14 DB                        3         5".
Definition b5589 : text := " 021083 Warm target calibration                                          NUMERIC                    0            0  16 NUMERIC                   0         5".
Definition b5590 : text := " 021084 Cold target calibration                                          NUMERIC                    0            0  16 NUMERIC                   0         5".
Definition b5591 : text := " 021085 ATSR sea surface temperature across-track band number            NUMERIC                    0            0   4 NUMERIC                   0         2".
Definition b5592 : text := " 021086 Number of pixels in Nadir only, average                          NUMERIC                    0            0   9 NUMERIC                   0         3".
Definition b5593 : text := " 021087 Number of pixels in dual view, average                           NUMERIC                    0            0   9 NUMERIC                   0         3".
Definition b5594 : text := " 021088 Wet backscatter                                                  DB                         2        -5000  13 DB                        2         4".
Definition b5595 : text := " 021091 Radar signal Doppler spectrum 0th moment                         DB                         0         -100   8 DB                        0         3".
Definition b5596 : text := " 021092 RASS signal Doppler spectrum 0th moment, referring to RASS signa DB                         0         -100   8 DB                        0         3".
Definition b5597 : text := " 021093 Ku band peakiness                                                NUMERIC                    3            0  16 NUMERIC                   3         5".
Definition b5598 : text := " 021094 S band peakiness                                                 NUMERIC                    3            0  16 NUMERIC                   3         5".
Definition b5599 : text := " 021101 Number of vector ambiguities                                     NUMERIC                    0            0   3 NUMERIC                   0         1".
Definition b5600 : text := " 021102 Index of selected wind vector                                    NUMERIC                    0            0   3 NUMERIC                   0         1".
Definition b5601 : text := " 021103 Total number of sigma-0 measurements                             NUMERIC                    0            0   5 NUMERIC                   0         2".
Definition b5602 : text := " 021104 Likelihood computed for solution                                 NUMERIC                    3       -30000  15 NUMERIC                   3         5".
Definition b5603 : text := " 021105 Normalized radar cross-section                                   DB                         2       -10000  14 DB                        2         5".
Definition b5604 : text := " 021106 Kp variance coefficient (alpha)                                  NUMERIC                    3            0  14 NUMERIC                   3         5".
Definition b5605 : text := " 021107 Kp variance coefficient (beta)                                   NUMERIC                    8            0  16 NUMERIC                   8         5".
Definition b5606 : text := " 021109 SEAWINDS wind vector cell quality                                FLAG TABLE                 0            0  17 FLAG TABLE                0         6".
Definition b5607 : text := " 021110 Number of inner-beam sigma-0 (forward of satellite)              NUMERIC                    0            0   6 NUMERIC                   0         2".
Definition b5608 : text := " 021111 Number of outer-beam sigma-0 (forward of satellite)              NUMERIC                    0            0   6 NUMERIC                   0         2".
Definition b5609 : text := " 021112 Number of inner-beam sigma-0 (aft of satellite)                  NUMERIC                    0            0   6 NUMERIC                   0         2".
Definition b5610 : text := " 021113 Number of outer-beam sigma-0 (aft of satellite)                  NUMERIC                    0            0   6 NUMERIC                   0         2".
Definition b5611 : text := " 021114 Kp variance coefficient (gamma)                                  DB                         3      -140000  18 DB                        3         6".
Definition b5612 : text := " 021115 SEAWINDS sigma-0 quality                                         FLAG TABLE                 0            0  17 FLAG TABLE                0         6".
Definition b5613 : text := " 021116 SEAWINDS sigma-0 mode                                            FLAG TABLE                 0            0  17 FLAG TABLE                0         6".
Definition b5614 : text := " 021117 Sigma-0 variance quality control                                 NUMERIC                    2            0  16 NUMERIC                   2         5".
Definition b5615 : text := " 021118 Attenuation correction on sigma-0                                DB                         2       -10000  14 DB                        2         5".
Definition b5616 : text := " 021119 Wind scatterometer geophysical model function                    CODE TABLE                 0            0   6 CODE TABLE                0         2".
Definition b5617 : text := " 021120 Probability of rain                                              NUMERIC                    3            0  10 NUMERIC                   3         4".
Definition b5618 : text := " 021121 SEAWINDS NOF rain index                                          NUMERIC                    0            0   8 NUMERIC                   0         3".
Definition b5619 : text := " 021122 Attenuation correction on sigma-0 (from tB)                      DB                         2       -10000  14 DB                        2         5".
Definition b5620 : text := " 021123 SEAWINDS normalized radar cross-section                          DB                         2       -30000  15 DB                        2         5".
Definition b5621 : text := " 021128 Number of valid points per second used to derive previous parame NUMERIC                    0            0   8 NUMERIC                   0         3".
Definition b5622 : text := " 021130 Spectrum total energy                                            NUMERIC                    6            0  28 NUMERIC                   6         9".
Definition b5623 : text := " 021131 Spectrum max energy                                              NUMERIC                    6            0  28 NUMERIC                   6         9".
Definition b5624 : text := " 021132 Direction of spectrum max on higher resolution grid              DEG                        3            0  19 DEG                       3         6".
Definition b5625 : text := " 021133 Wavelength of spectrum max on higher resolution grid             M                          3            0  29 M                         3         9".
Definition b5626 : text := " 021134 Range resolution of cress covariance spectrum                    RAD/M                      3            0  19 RAD/M                     3         6".
Definition b5627 : text := " 021135 Real part of cross spectra polar grid number of bins             NUMERIC                    3      -524288  20 NUMERIC                   3         7".
Definition b5628 : text := " 021136 Imaginary part of cross spectra polar grid number of bins        NUMERIC                    3      -524288  20 NUMERIC                   3         7".
Definition b5629 : text := " 021137 Ku band corrected ocean backscatter coefficient                  DB                         2       -32768  16 DB                        2         5".
Definition b5630 : text := " 021138 Std Ku band corrected ocean backscatter coefficient              DB                         2       -32768  16 DB                        2         5".
Definition b5631 : text := " 021139 Ku band net instrumental correction for AGC                      DB                         2        -2048  12 DB                        2         4".
Definition b5632 : text := " 021140 S band corrected ocean backscatter coefficient                   DB                         2       -32768  16 DB                        2         5".
Definition b5633 : text := " 021141 Std S band corrected ocean backscatter coefficient               DB                         2       -32768  16 DB                        2         5".
Definition b5634 : text := " 021142 S band net instrumental correction for AGC                       DB                         2        -1024  11 DB                        2         4".
Definition b5635 : text := " 021143 Ku band rain attenuation                                         DB                         2  -1073741824  31 DB                        2        10".
Definition b5636 : text := " 021144 Altimeter rain flag                                              FLAG TABLE                 0            0   2 FLAG TABLE                0         1".
Definition b5637 : text := " 021145 Ku band automatic gain control                                   DB                         2            0  13 DB                        2         4".
Definition b5638 : text := " 021146 RMS Ku band automatic gain control                               DB                         2            0   8 DB                        2         3".
Definition b5639 : text := " 021147 Number of valid points for Ku band automatic gain control        NUMERIC                    0            0   5 NUMERIC                   0         2".
Definition b5640 : text := " 021150 Beam co-location                                                 CODE TABLE                 0            0   2 CODE TABLE                0         1".
Definition b5641 : text := " 021151 Estimated error in sigma-0 at 40 degrees incidence angle         DB                         2            0   9 DB                        2         3".
Definition b5642 : text := " 021152 Slope at 40 degrees incidence angle                              DB/DEG                     2          -80   7 DB/DEG                    2         2".
Definition b5643 : text := " 021153 Estimated error in slope at 40 degrees incidence angle           DB/DEG                     2          -40   6 DB/DEG                    2         2".
Definition b5644 : text := " 021154 Soil moisture sensitivity                                        DB                         2            0  12 DB                        2         4".
Definition b5645 : text := " 021155 Wind vector cell quality                                         FLAG TABLE                 0            0  24 FLAG TABLE                0         8".
Definition b5646 : text := " 021156 Backscatter distance                                             NUMERIC                    1        -4096  13 NUMERIC                   1         4".
Definition b5647 : text := " 021157 Loss per unit length of atmosphere used                          DB/M                      10            0  22 DB/M                     10         7".
Definition b5648 : text := " 021158 ASCAT KP quality estimate                                        CODE TABLE                 0            0   2 CODE TABLE                0         1".
Definition b5649 : text := " 021159 ASCAT sigma-0 usability                                          CODE TABLE                 0            0   2 CODE TABLE                0         1".
Definition b5650 : text := " 021160 ASCAT use of synthetic data                                      NUMERIC                    3            0  10 NUMERIC                   3         4".
Definition b5651 : text := " 021161 ASCAT synthetic data quality                                     NUMERIC                    3            0  10 NUMERIC                   3         4".
Definition b5652 : text := " 021162 ASCAT satellite orbit and attitude quality                       NUMERIC                    3            0  10 NUMERIC                   3         4".
Definition b5653 : text := " 021163 ASCAT solar array reflection contamination                       NUMERIC                    3            0  10 NUMERIC                   3         4".
Definition b5654 : text := " 021164 ASCAT telemetry presence and quality                             NUMERIC                    3            0  10 NUMERIC                   3         4".
Definition b5655 : text := " 021165 ASCAT extrapolated reference function presence                   NUMERIC                    3            0  10 NUMERIC                   3         4".
Definition b5656 : text := " 021166 Land fraction                                                    NUMERIC                    3            0  10 NUMERIC                   3         4".
Definition b5657 : text := " 021169 Ice presence indicator                                           CODE TABLE                 0            0   2 CODE TABLE                0         1".
Definition b5658 : text := " 021170 C band corrected ocean backscatter coefficient                   DB                         2       -32768  16 DB                        2         5".
Definition b5659 : text := " 021171 RMS C band corrected ocean backscatter coefficient               DB                         2       -32768  16 DB                        2         5".
Definition b5660 : text := " 021172 C band net instrumental correction for AGC                       DB                         2        -2048  12 DB                        2         4".
Definition b5661 : text := " 021173 C band automatic gain control                                    DB                         2            0  13 DB                        2         4".
Definition b5662 : text := " 021174 RMS C band automatic gain control                                DB                         2            0   9 DB                        2         3".
Definition b5663 : text := " 021175 Number of valid points for C band automatic gain control         NUMERIC                    0            0  10 NUMERIC                   0         4".
Definition b5664 : text := " 022001 Direction of waves (degree true)                                 DEG                        0            0   9 DEG                       0         3".
Definition b5665 : text := " 022002 Direction of wind waves (degree true)                            DEG                        0            0   9 DEG                       0         3".
Definition b5666 : text := " 022003 Direction of swell waves (degree true)                           DEG                        0            0   9 DEG                       0         3".
Definition b5667 : text := " 022004 Direction of current (degree true)                               DEG                        0            0   9 DEG                       0         3".
Definition b5668 : text := " 022005 Direction of sea surface current (degree true)                   DEG                        0            0   9 DEG                       0         3".
Definition b5669 : text := " 022011 Period of waves                                                  S                          0            0   6 S                         0         2".
Definition b5670 : text := " 022012 Period of wind waves                                             S                          0            0   6 S                         0         2".
Definition b5671 : text := " 022013 Period of swell waves                                            S                          0            0   6 S                         0         2".
Definition b5672 : text := " 022021 Height of waves                                                  M                          1            0  10 M                         1         4".
Definition b5673 : text := " 022022 Height of wind waves                                             M                          1            0  10 M                         1         4".
Definition b5674 : text := " 022023 Height of swell waves                                            M                          1            0  10 M                         1         4".
Definition b5675 : text := " 022025 Standard deviation wave height                                   M                          2            0  10 M                         2         4".
Definition b5676 : text := " 022026 Standard deviation of significant wave height                    M                          2            0  10 M                         2         4".
Definition b5677 : text := " 022031 Speed of current                                                 M/S                        2            0  13 M/S                       2         4".
Definition b5678 : text := " 022032 Speed of sea surface current                                     M/S                        2            0  13 M/S                       2         4".
Definition b5679 : text := " 022035 Tidal elevation with respect to local chart datum                M                          2            0  14 M                         2         4".
Definition b5680 : text := " 022036 Meteorological residual tidal elevation (surge or offset)        M                          2            0  14 M                         2         4".
Definition b5681 : text := " 022037 Tidal elevation with respect to national land datum              M                          3       -10000  15 M                         3         5".
Definition b5682 : text := " 022038 Tidal elevation with respect to local chart datum                M                          3       -10000  15 M                         3         5".
Definition b5683 : text := " 022039 Meteorological residual tidal elevation (surge or offset)        M                          3        -5000  13 M                         3         4".
Definition b5684 : text := " 022040 Meteorological residual tidal elevation (surge or offset)        M                          3        -5000  14 M                         3         5".
Definition b5685 : text := " 022041 Sea-surface temperature (15-day running mean)                    K                          1            0  12 K                         1         4".
Definition b5686 : text := " 022042 Sea/water temperature                                            K                          1            0  12 K                         1         4".
Definition b5687 : text := " 022043 Sea/water temperature                                            K                          2            0  15 K                         2         5".
Definition b5688 : text := " 022044 Sound velocity                                                   M/S                        1            0  14 M/S                       1         5".
Definition b5689 : text := " 022045 Sea/water temperature                                            K                          3            0  19 K                         3         6".
Definition b5690 : text := " 022046 Sea ice fraction                                                 NUMERIC                    2            0   7 NUMERIC                   2         3".
Definition b5691 : text := " 022049 Sea surface temperature                                          K                          2            0  15 K                         2         5".
Definition b5692 : text := " 022050 Standard deviation sea-surface temperature                       K                          2            0   8 K                         2         3".
Definition b5693 : text := " 022055 Float cycle number                                               NUMERIC                    0            0  10 NUMERIC                   0         3".
Definition b5694 : text := " 022056 Direction of profile                                             CODE TABLE                 0            0   2 CODE TABLE                0         1".
Definition b5695 : text := " 022059 Sea surface salinity                                             0/00                       2            0  14 0/00                      2         5".
Definition b5696 : text := " 022060 Lagrangian drifter drogue status                                 CODE TABLE                 0            0   3 CODE TABLE                0         1".
Definition b5697 : text := " 022061 State of the sea                                                 CODE TABLE                 0            0   4 CODE TABLE                0         2".
Definition b5698 : text := " 022062 Salinity                                                         0/00                       2            0  14 0/00                      2         5".
Definition b5699 : text := " 022063 Total water depth                                                M                          0            0  14 M                         0         5".
Definition b5700 : text := " 022064 Salinity                                                         0/00                       3            0  17 0/00                      3         6".
Definition b5701 : text := " 022065 Water pressure                                                   PA                        -3            0  17 PA                       -3         6".
Definition b5702 : text := " 022066 Water conductivity                                               S/M                        6            0  26 S/M                       6         8".
Definition b5703 : text := " 022067 Instrument type for water temperature profile measurement        CODE TABLE                 0            0  10 CODE TABLE                0         4".
Definition b5704 : text := " 022068 Water temperature profile recorder types                         CODE TABLE                 0            0   7 CODE TABLE                0         3".
Definition b5705 : text := " 022069 Spectral wave density                                            M2 HZ-1                    3            0  22 M2 HZ-1                   3         7".
Definition b5706 : text := " 022070 Significant wave height                                          M                          2            0  13 M                         2         4".
Definition b5707 : text := " 022071 Spectral peak wave period                                        S                          1            0   9 S                         1         3".
Definition b5708 : text := " 022072 Spectral peak wave length                                        M                          0            0  13 M                         0         4".
Definition b5709 : text := " 022073 Maximum wave height                                              M                          2            0  13 M                         2         4".
Definition b5710 : text := " 022074 Average wave period                                              S                          1            0   9 S                         1         3".
Definition b5711 : text := " 022075 Average wave length                                              M                          0            0  13 M                         0         4".
Definition b5712 : text := " 022076 Direction from which dominant waves are coming (degree true)     DEG                        0            0   9 DEG                       0         3".
Definition b5713 : text := " 022077 Directional spread of dominant wave                              DEG                        0            0   9 DEG                       0         3".
Definition b5714 : text := " 022078 Duration of wave record                                          S                          0            0  12 S                         0         4".
Definition b5715 : text := " 022079 Length of wave record                                            M                          0            0  16 M                         0         5".
Definition b5716 : text := " 022080 Waveband central frequency                                       HZ                         3            0  10 HZ                        3         4".
Definition b5717 : text := " 022081 Waveband central wave number                                     M-1                        5            0  13 M-1                       5         4".
Definition b5718 : text := " 022082 Maximum non-directional spectral wave density                    M2 S                       2            0  20 M2 S                      2         7".
Definition b5719 : text := " 022083 Maximum non-directional spectral wave number                     M3                         2            0  20 M3                        2         7".
Definition b5720 : text := " 022084 Band containing maximum non-directional spectral wave density    NUMERIC                    0            0   7 NUMERIC                   0         3".
Definition b5721 : text := " 022085 Spectral wave density ratio                                      NUMERIC                    0            0   7 NUMERIC                   0         3".
Definition b5722 : text := " 022086 Mean direction from which waves are coming (degree true)         DEG                        0            0   9 DEG                       0         3".
Definition b5723 : text := " 022087 Principal direction from which waves are coming (degree true)    DEG                        0            0   9 DEG                       0         3".
Definition b5724 : text := " 022088 First normalized polar coordinate from Fourier coefficients      NUMERIC                    2            0   7 NUMERIC                   2         3".
Definition b5725 : text := " 022089 Second normalized polar coordinate from Fourier coefficients     NUMERIC                    2            0   7 NUMERIC                   2         3".
Definition b5726 : text := " 022090 Non-directional spectral estimate by wave frequency              M2 S                       2            0  20 M2 S                      2         7".
Definition b5727 : text := " 022091 Non-directional spectral estimate by wave number                 M3                         2            0  20 M3                        2         7".
Definition b5728 : text := " 022092 Directional spectral estimate by wave frequency                  M2 RAD-1 S                 2            0  20 M2 RAD-1 S                2         7".
Definition b5729 : text := " 022093 Directional spectral estimate by wave number                     M4                         2            0  20 M4                        2         7".
Definition b5730 : text := " 022094 Total number of wave bands                                       NUMERIC                    0            0   7 NUMERIC                   0         3".
Definition b5731 : text := " 022095 Directional spread of individual waves                           DEG                        0            0   8 DEG                       0         3".
Definition b5732 : text := " 022096 Spectral band width                                              /S                         3            0   4 /S                        3         2".
Definition b5733 : text := " 022097 Mean wavelength > 731 m of image spectrum at low wave numbers    M                          0            0  14 M                         0         5".
Definition b5734 : text := " 022098 Wavelength spread (wavelength > 731 m) at low wave numbers       M                          0            0  14 M                         0         5".
Definition b5735 : text := " 022099 Mean direction at low wave numbers (wavelength > 731 m) (degree  DEG                        0            0   9 DEG                       0         3".
Definition b5736 : text := " 022100 Direction spread at low wave numbers (wavelength > 731 m)        DEG                        0            0   9 DEG                       0         3".
Definition b5737 : text := " 022101 Total energy (wavelength > 731m) at low wave numbers             NUMERIC                    0            0  31 NUMERIC                   0        10".
Definition b5738 : text := " 022120 Tide station automated water level check                         CODE TABLE                 0            0   5 CODE TABLE                0         2".
Definition b5739 : text := " 022121 Tide station manual water level check                            CODE TABLE                 0            0   5 CODE TABLE                0         2".
Definition b5740 : text := " 022122 Tide station automated meteorological data check                 CODE TABLE                 0            0   5 CODE TABLE                0         2".
Definition b5741 : text := " 022123 Tide station manual meteorological data check                    CODE TABLE                 0            0   5 CODE TABLE                0         2".
Definition b5742 : text := " 022141 Sea-surface temperature (15-day running mean)                    K                          2            0  15 K                         2         5".
Definition b5743 : text := " 022150 Number of 18 Hz valid points for Ku band                         NUMERIC                    0            0  10 NUMERIC                   0         4".
Definition b5744 : text := " 022151 Ku band ocean range                                              M                          3            0  31 M                         3        10".
Definition b5745 : text := " 022152 STD of 18 Hz Ku band ocean range                                 M                          3            0  16 M                         3         5".
Definition b5746 : text := " 022153 Number of 18 Hz valid points for S band                          NUMERIC                    0            0  10 NUMERIC                   0         4".
Definition b5747 : text := " 022154 S band ocean range                                               M                          3            0  31 M                         3        10".
Definition b5748 : text := " 022155 STD of 18 Hz S band ocean range                                  M                          3            0  16 M                         3         5".
Definition b5749 : text := " 022156 Ku band significant wave height                                  M                          3            0  16 M                         3         5".
Definition b5750 : text := " 022157 STD of 18 Hz Ku band ocean range                                 M                          3            0  16 M                         3         5".
Definition b5751 : text := " 022158 S band significant wave height                                   M                          3            0  16 M                         3         5".
Definition b5752 : text := " 022159 STD of 18 Hz S band significant wave height                      M                          3            0  16 M                         3         5".
Definition b5753 : text := " 022160 Normalized inverse wave age                                      NUMERIC                    6            0  21 NUMERIC                   6         7".
Definition b5754 : text := " 022161 Wave spectra                                                     M4                         4            0  27 M4                        4         9".
Definition b5755 : text := " 022162 RMS of 20 Hz Ku band ocean range                                 M                          3            0  16 M                         3         5".
Definition b5756 : text := " 022163 Number of 20 Hz valid points for Ku band                         NUMERIC                    0            0  10 NUMERIC                   0         4".
Definition b5757 : text := " 022164 RMS 20 Hz Ku band significant wave height                        M                          3            0  16 M                         3         5".
Definition b5758 : text := " 022165 Number of 20 Hz valid points for Ku band significant wave height NUMERIC                    0            0  10 NUMERIC                   0         4".
Definition b5759 : text := " 022166 Ku band net instrumental correction for significant wave height  M                          3        -1000  11 M                         3         4".
Definition b5760 : text := " 022167 Number of valid points for Ku band backscatter                   NUMERIC                    0            0  10 NUMERIC                   0         4".
Definition b5761 : text := " 022168 C band ocean range                                               M                          3            0  31 M                         3        10".
Definition b5762 : text := " 022169 RMS of C band ocean range                                        M                          3            0  16 M                         3         5".
Definition b5763 : text := " 022170 Number of 20 Hz valid points for C band                          NUMERIC                    0            0  10 NUMERIC                   0         4".
Definition b5764 : text := " 022171 C band significant wave height                                   M                          3            0  16 M                         3         5".
Definition b5765 : text := " 022172 RMS 20 Hz C band significant wave height                         M                          3            0  16 M                         3         5".
Definition b5766 : text := " 022173 Number of 20 Hz valid points for C band significant wave height  NUMERIC                    0            0  10 NUMERIC                   0         4".
Definition b5767 : text := " 022174 C band net instrumental correction for significant wave height   M                          3        -1000  11 M                         3         4".
Definition b5768 : text := " 022175 Number of valid points for C band backscatter                    NUMERIC                    0            0  10 NUMERIC                   0         4".
Definition b5769 : text := " 022176 Unique identifier for the profile                                CCITTIA5                   0            0  72 CHARACTER                 0        72".
Definition b5770 : text := " 022177 Height of XBT/XCTD Launcher                                      M                          1            0   9 M                         0         3".
Definition b5771 : text := " 022178 XBT/XCTD launcher Type                                           CODE TABLE                 0            0   8 CODE TABLE                0         3".
Definition b5772 : text := " 022179 Software version of profile recorder                             CCITTIA5                   0            0 256 CHARACTER                 0       256".
Definition b5773 : text := " 022180 Auto launcher software version number                            CCITTIA5                   0            0 256 CHARACTER                 0       256".
Definition b5774 : text := " 022181 Instrument manufacturer's serial number                          CCITTIA5                   0            0  32 CHARACTER                 0        32".
Definition b5775 : text := " 022182 Water column height                                              M                          3            0  23 M                         3         7".
Definition b5776 : text := " 022184 Water column height deviation from the reference value           M                          3        -2000  12 M                         3         4".
Definition b5777 : text := " 022185 BPR transmission count                                           NUMERIC                    0            0  10 NUMERIC                   0         3".
Definition b5778 : text := " 022186 Direction from which waves are coming (degree true)              DEG                        0            0   9 DEG                       0         3".
Definition b5779 : text := " 022187 Directional spread of wave                                       DEG                        0            0   9 DEG                       0         3".
Definition b5780 : text := " 023001 Accident early notification - article applicable                 CODE TABLE                 0            0   3 CODE TABLE                0         1".
Definition b5781 : text := " 023002 Activity or facility involved in incident                        CODE TABLE                 0            0   5 CODE TABLE                0         2".
Definition b5782 : text := " 023003 Type of release                                                  CODE TABLE                 0            0   3 CODE TABLE                0         1".
Definition b5783 : text := " 023004 Countermeasures taken near border                                CODE TABLE                 0            0   3 CODE TABLE                0         1".
Definition b5784 : text := " 023005 Cause of incident                                                CODE TABLE                 0            0   2 CODE TABLE                0         1".
Definition b5785 : text := " 023006 Incident situation                                               CODE TABLE                 0            0   3 CODE TABLE                0         1".
Definition b5786 : text := " 023007 Characteristics of release                                       CODE TABLE                 0            0   3 CODE TABLE                0         1".
Definition b5787 : text := " 023008 State of current release                                         CODE TABLE                 0            0   2 CODE TABLE                0         1".
Definition b5788 : text := " 023009 State of expected release                                        CODE TABLE                 0            0   2 CODE TABLE                0         1".
Definition b5789 : text := " 023016 Possibility of significant chemical toxic health effect          CODE TABLE                 0            0   2 CODE TABLE                0         1".
Definition b5790 : text := " 023017 Flow discharge of major recipient                                M3/S                       6            0  20 M3/S                      6         7".
Definition b5791 : text := " 023018 Release behaviour over time                                      CODE TABLE                 0            0   3 CODE TABLE                0         1".
Definition b5792 : text := " 023019 Actual release height                                            M                          0       -15000  17 M                         0         6".
Definition b5793 : text := " 023021 Effective release height                                         M                          0       -15000  17 M                         0         6".
Definition b5794 : text := " 023022 Distance of release point or site of incident                    M                          0            0  24 M                         0         8".
Definition b5795 : text := " 023023 Main transport speed in the atmosphere                           M/S                        1            0  12 M/S                       1         4".
Definition b5796 : text := " 023024 Main transport speed in water                                    M/S                        2            0  13 M/S                       2         4".
Definition b5797 : text := " 023025 Main transport speed in ground water                             M/S                        2            0  13 M/S                       2         4".
Definition b5798 : text := " 023027 Main transport direction in the atmosphere (degree true)         DEG                        0            0   9 DEG                       0         3".
Definition b5799 : text := " 023028 Main transport direction in water (degree true)                  DEG                        0            0   9 DEG                       0         3".
Definition b5800 : text := " 023029 Main transport direction in ground water (degree true)           DEG                        0            0   9 DEG                       0         3".
Definition b5801 : text := " 023031 Possibility that plume will encounter precipitation in State in  CODE TABLE                 0            0   2 CODE TABLE                0         1".
Definition b5802 : text := " 023032 Plume will encounter change in wind direction and/or speed flag  CODE TABLE                 0            0   2 CODE TABLE                0         1".
Definition b5803 : text := " 023040 Flow discharge - river                                           M3/S                       1            0  22 M3/S                      1         7".
Definition b5804 : text := " 023041 Flow discharge - well                                            M3/S                       3            0  16 M3/S                      3         5".
Definition b5805 : text := " 024001 Estimate of amount of radioactivity released up to specified tim BQ                       -11            0  28 BQ                       -11         9".
Definition b5806 : text := " 024002 Estimated maximum potential release                              BQ                       -11            0  28 BQ                       -11         9".
Definition b5807 : text := " 024003 Composition of release                                           CODE TABLE                 0            0   5 CODE TABLE                0         2".
Definition b5808 : text := " 024004 Element name                                                     CCITTIA5                   0            0  16 CHARACTER                 0         2".
Definition b5809 : text := " 024005 Isotope mass                                                     NUMERIC                    0            0   9 NUMERIC                   0         3".
Definition b5810 : text := " 024011 Dose                                                             MSV                        2            0  32 MSV                       2        10".
Definition b5811 : text := " 024012 Trajectory dose (defined location and expected time of arrival)  MSV                        2            0  32 MSV                       2        10".
Definition b5812 : text := " 024013 Gamma dose in air along the main transport path (defined locatio MSV                        2            0  32 MSV                       2        10".
Definition b5813 : text := " 024014 Gamma radiation dose rate                                        NSV/H                      1            0  14 NSV/H                     1         4".
Definition b5814 : text := " 024021 Air concentration (of named isotope type including gross beta)   BQ M-3                     2            0  32 BQ M-3                    2        10".
Definition b5815 : text := " 024022 Concentration in precipitation (of names isotope type)           BQ/L                       2            0  32 BQ/L                      2        10".
Definition b5816 : text := " 024023 Pulse rate of beta radiation                                     /S                         1            0  14 /S                        1         4".
Definition b5817 : text := " 024024 Pulse rate of gamma radiation                                    /S                         1            0  14 /S                        1         4".
Definition b5818 : text := " 025001 Range-gate length                                                M                         -1            0   6 M                        -1         2".
Definition b5819 : text := " 025002 Number of gates averaged                                         NUMERIC                    0            0   4 NUMERIC                   0         2".
Definition b5820 : text := " 025003 Number of integrated pulses                                      NUMERIC                    0            0   8 NUMERIC                   0         3".
Definition b5821 : text := " 025004 Echo processing                                                  CODE TABLE                 0            0   2 CODE TABLE                0         1".
Definition b5822 : text := " 025005 Echo integration                                                 CODE TABLE                 0            0   2 CODE TABLE                0         1".
Definition b5823 : text := " 025006 Z to R conversion                                                CODE TABLE                 0            0   3 CODE TABLE                0         1".
Definition b5824 : text := " 025007 Z to R conversion factor                                         NUMERIC                    0            0  12 NUMERIC                   0         4".
Definition b5825 : text := " 025008 Z to R conversion exponent                                       NUMERIC                    2            0   9 NUMERIC                   2         3".
Definition b5826 : text := " 025009 Calibration method                                               FLAG TABLE                 0            0   4 FLAG TABLE                0         2".
Definition b5827 : text := " 025010 Clutter treatment                                                CODE TABLE                 0            0   4 CODE TABLE                0         2".
Definition b5828 : text := " 025011 Ground occultation correction (screening)                        CODE TABLE                 0            0   2 CODE TABLE                0         1".
Definition b5829 : text := " 025012 Range attenuation correction                                     CODE TABLE                 0            0   2 CODE TABLE                0         1".
Definition b5830 : text := " 025013 Bright-band correction                                           FLAG TABLE                 0            0   2 FLAG TABLE                0         1".
Definition b5831 : text := " 025014 Azimuth clutter cut-off                                          NUMERIC                    0            0  12 NUMERIC                   0         4".
Definition b5832 : text := " 025015 Radome attenuation correction                                    FLAG TABLE                 0            0   2 FLAG TABLE                0         1".
Definition b5833 : text := " 025016 Clear-air attenuation correction                                 DB/M                       5            0   6 DB/M                      5         2".
Definition b5834 : text := " 025017 Precipitation attenuation correction                             FLAG TABLE                 0            0   2 FLAG TABLE                0         1".
Definition b5835 : text := " 025018 A to Z law for attenuation factor                                NUMERIC                    7            0   6 NUMERIC                   7         2".
Definition b5836 : text := " 025019 A to Z law for attenuation exponent                              NUMERIC                    2            0   7 NUMERIC                   2         3".
Definition b5837 : text := " 025020 Mean speed estimation                                            CODE TABLE                 0            0   2 CODE TABLE                0         1".
Definition b5838 : text := " 025021 Wind computation enhancement                                     FLAG TABLE                 0            0   8 FLAG TABLE                0         3".
Definition b5839 : text := " 025022 GHRSST rejection flag                                            FLAG TABLE                 0            0   9 FLAG TABLE                0         3".
Definition b5840 : text := " 025023 GHRSST confidence flag                                           FLAG TABLE                 0            0   9 FLAG TABLE                0         3".
Definition b5841 : text := " 025024 GHRSST data quality                                              CODE TABLE                 0            0   4 CODE TABLE                0         2".
Definition b5842 : text := " 025025 Battery voltage                                                  V                          1            0   9 V                         1         3".
Definition b5843 : text := " 025026 Battery voltage (large range)                                    V                          1            0  12 V                         1         4".
Definition b5844 : text := " 025028 Operator or manufacturer defined parameter                       NUMERIC                    1       -16384  15 NUMERIC                   1         5".
Definition b5845 : text := " 025029 Calibration method                                               FLAG TABLE                 0            0   6 FLAG TABLE                0         2".
Definition b5846 : text := " 025030 Running mean sea-surface temperature usage                       CODE TABLE                 0            0   2 CODE TABLE                0         1".
Definition b5847 : text := " 025031 NWP-generated vertical profile thinning method                   CODE TABLE                 0            0   3".
Definition b5848 : text := " 025032 Wind profiler mode information                                   CODE TABLE                 0            0   2 CODE TABLE                0         1".
Definition b5849 : text := " 025033 Wind profiler submode information                                CODE TABLE                 0            0   2 CODE TABLE                0         1".
Definition b5850 : text := " 025034 Wind profiler quality control test results                       FLAG TABLE                 0            0   4 FLAG TABLE                0         2".
Definition b5851 : text := " 025035 Decision method for polarity                                     CODE TABLE                 0            0   3 CODE TABLE                0         1".
Definition b5852 : text := " 025036 Atmospherics location method                                     CODE TABLE                 0            0   4 CODE TABLE                0         2".
Definition b5853 : text := " 025037 SST bias                                                         K                          2         -127   8 K                         2         3".
Definition b5854 : text := " 025038 Difference between SST and analysis                              K                          1         -127   8 K                         1         3".
Definition b5855 : text := " 025040 CO2 wind product derivation                                      CODE TABLE                 0            0   4 CODE TABLE                0         2".
Definition b5856 : text := " 025041 Moving platform direction reporting method                       CODE TABLE                 0            0   2 CODE TABLE                0         1".
Definition b5857 : text := " 025042 Moving platform speed reporting method                           CODE TABLE                 0            0   2 CODE TABLE                0         1".
Definition b5858 : text := " 025043 Wave sampling interval (time)                                    S                          4            0  15 S                         4         5".
Definition b5859 : text := " 025044 Wave sampling interval (space)                                   M                          2            0  14 M                         2         5".
Definition b5860 : text := " 025045 HIRS channel combination                                         FLAG TABLE                 0            0  21 FLAG TABLE                0         7".
Definition b5861 : text := " 025046 MSU channel combination                                          FLAG TABLE                 0            0   5 FLAG TABLE                0         2".
Definition b5862 : text := " 025047 SSU channel combination                                          FLAG TABLE                 0            0   4 FLAG TABLE                0         2".
Definition b5863 : text := " 025048 AMSU-A channel combination                                       FLAG TABLE                 0            0  16 FLAG TABLE                0         6".
Definition b5864 : text := " 025049 AMSU-B channel combination                                       FLAG TABLE                 0            0   6 FLAG TABLE                0         2".
Definition b5865 : text := " 025050 Principal component score                                        NUMERIC                    4      -131072  18 NUMERIC                   4         6".
Definition b5866 : text := " 025051 AVHRR channel combination                                        FLAG TABLE                 0            0   7 FLAG TABLE                0         3".
Definition b5867 : text := " 025052 Log-10 of principal components normalized fit to data            NUMERIC                    4            0  15 NUMERIC                   4         5".
Definition b5868 : text := " 025053 Observation quality                                              FLAG TABLE                 0            0  12 FLAG TABLE                0         4".
Definition b5869 : text := " 025054 SSMIS subframe ID number                                         NUMERIC                    0            0   5 NUMERIC                   0         2".
Definition b5870 : text := " 025055 Multiplexer housekeeping                                         K                          2            0  16 K                         2         5".
Definition b5871 : text := " 025060 Software identification                                          NUMERIC                    0            0  14 NUMERIC                   0         5".
Definition b5872 : text := " 025061 Software identification and version number                       CCITTIA5                   0            0  96 CHARACTER                 0        12".
Definition b5873 : text := " 025062 Database identification                                          NUMERIC                    0            0  14 NUMERIC                   0         5".
Definition b5874 : text := " 025063 Central processor or system identifier                           CODE TABLE                 0            0   8 CODE TABLE                0         3".
Definition b5875 : text := " 025065 Orientation correction (azimuth)                                 DEG                        2        -1000  11 DEG                       2         4".
Definition b5876 : text := " 025066 Orientation correction (elevation)                               DEG                        2        -1000  11 DEG                       2         4".
Definition b5877 : text := " 025067 Radiosonde release point pressure correction                     PA                         0        -8000  14 PA                        0         4".
Definition b5878 : text := " 025068 Number of archive recomputes                                     NUMERIC                    0            0   7 NUMERIC                   0         3".
Definition b5879 : text := " 025069 Flight level pressure corrections                                FLAG TABLE                 0            0   8 FLAG TABLE                0         3".
Definition b5880 : text := " 025070 Major frame count                                                NUMERIC                    0            0   4 NUMERIC                   0         2".
Definition b5881 : text := " 025071 Frame count                                                      NUMERIC                    0            0   5 NUMERIC                   0         2".
Definition b5882 : text := " 025075 Satellite antenna corrections version number                     NUMERIC                    0            0   5 NUMERIC                   0         2".
Definition b5883 : text := " 025076 Log-10 of (Temperature-radiance central wave number) for ATOVS   LOG (M-1)                  8            0  30 LOG (M-1)                 8        10".
Definition b5884 : text := " 025077 Bandwidth correction coefficient 1 for ATOVS                     NUMERIC                    5      -100000  18 NUMERIC                   5         7".
Definition b5885 : text := " 025078 Bandwidth correction coefficient 2 for ATOVS                     NUMERIC                    5            0  17 NUMERIC                   5         6".
Definition b5886 : text := " 025079 Albedo-radiance solar filtered irradiance for ATOVS              W M-2                      4            0  24 W M-2                     4         8".
Definition b5887 : text := " 025080 Albedo-radiance equivalent filter width for ATOVS                M                         10            0  14 M                        10         5".
Definition b5888 : text := " 025081 Incidence angle                                                  DEG                        3            0  17 DEG                       3         6".
Definition b5889 : text := " 025082 Azimuth angle                                                    DEG                        3            0  19 DEG                       3         6".
Definition b5890 : text := " 025083 Faraday rotational angle                                         DEG                        3            0  19 DEG                       3         6".
Definition b5891 : text := " 025084 Geometric rotational angle                                       DEG                        5            0  26 DEG                       5         8".
Definition b5892 : text := " 025085 Fraction of clear pixels in HIRS FOV                             NUMERIC                    0            0   7 NUMERIC                   0         3".
Definition b5893 : text := " 025086 Depth correction indicator                                       CODE TABLE                 0            0   2 CODE TABLE                0         1".
Definition b5894 : text := " 025090 Orbit state flag                                                 CODE TABLE                 0            0   4 CODE TABLE                0         2".
Definition b5895 : text := " 025091 Structure constant of the refraction index (Cn2)                 DB                         3       -18192  13 DB                        3         5".
Definition b5896 : text := " 025092 Acoustic propagation velocity                                    M/S                        2        28000  14 M/S                       2         5".
Definition b5897 : text := " 025093 RASS computation correction                                      FLAG TABLE                 0            0   8 FLAG TABLE                0         3".
Definition b5898 : text := " 025095 Altimeter state flag                                             FLAG TABLE                 0            0   2 FLAG TABLE                0         1".
Definition b5899 : text := " 025096 Radiometer state flag                                            FLAG TABLE                 0            0   5 FLAG TABLE                0         2".
Definition b5900 : text := " 025097 Three-dimensional error estimate of the navigator orbit          CODE TABLE                 0            0   4 CODE TABLE                0         2".
Definition b5901 : text := " 025098 Altimeter data quality flag                                      FLAG TABLE                 0            0   9 FLAG TABLE                0         3".
Definition b5902 : text := " 025099 Altimeter correction quality flag                                FLAG TABLE                 0            0   9 FLAG TABLE                0         3".
Definition b5903 : text := " 025100 XBT/XCTD fall rate equation coefficient a                        NUMERIC                    5            0  20 NUMERIC                   5         6".
Definition b5904 : text := " 025101 XBT/XCTD fall rate equation coefficient b                        NUMERIC                    5      -500000  21 NUMERIC                   5         6".
Definition b5905 : text := " 025102 Number of missing lines excluding data gaps                      NUMERIC                    0            0   8 NUMERIC                   0         3".
Definition b5906 : text := " 025103 Number of directional bins                                       NUMERIC                    0            0   8 NUMERIC                   0         3".
Definition b5907 : text := " 025104 Number of wavelength bins                                        NUMERIC                    0            0   8 NUMERIC                   0         3".
Definition b5908 : text := " 025105 First directional bin                                            DEG                        3            0  19 DEG                       3         6".
Definition b5909 : text := " 025106 Directional bin step                                             DEG                        3            0  19 DEG                       3         6".
Definition b5910 : text := " 025107 First wavelength bin                                             M                          3            0  29 M                         3         9".
Definition b5911 : text := " 025108 Last wavelength bin                                              M                          3            0  29 M                         3         9".
Definition b5912 : text := " 025110 Image processing summary                                         FLAG TABLE                 0            0  10 FLAG TABLE                0         4".
Definition b5913 : text := " 025111 Number of input data gaps                                        NUMERIC                    0            0   8 NUMERIC                   0         3".
Definition b5914 : text := " 025120 RA2-L2-processing flag                                           CODE TABLE                 0            0   2 CODE TABLE                0         1".
Definition b5915 : text := " 025121 RA2-L2-processing quality                                        %                          0            0   7 %                         0         3".
Definition b5916 : text := " 025122 Hardware configuration for RF                                    CODE TABLE                 0            0   2 CODE TABLE                0         1".
Definition b5917 : text := " 025123 Hardware configuration for HPA                                   CODE TABLE                 0            0   2 CODE TABLE                0         1".
Definition b5918 : text := " 025124 MWR-L2-processing flag                                           CODE TABLE                 0            0   2 CODE TABLE                0         1".
Definition b5919 : text := " 025125 MWR-L2-processing quality                                        %                          0            0   7 %                         0         3".
Definition b5920 : text := " 025126 Model dry tropospheric correction                                M                          3       -32768  16 M                         3         5".
Definition b5921 : text := " 025127 Inverted barometer correction                                    M                          3       -32768  16 M                         3         5".
Definition b5922 : text := " 025128 Model wet tropospheric correction                                M                          3       -32768  16 M                         3         5".
Definition b5923 : text := " 025129 MWR derived wet tropospheric correction                          M                          3       -32768  16 M                         3         5".
Definition b5924 : text := " 025130 RA2 ionospheric correction on Ku band                            M                          3       -32768  16 M                         3         5".
Definition b5925 : text := " 025131 Ionospheric correction from Doris on Ku band                     M                          3       -32768  16 M                         3         5".
Definition b5926 : text := " 025132 Ionospheric correction from model on Ku band                     M                          3       -32768  16 M                         3         5".
Definition b5927 : text := " 025133 Sea state bias correction on Ku band                             M                          3       -32768  16 M                         3         5".
Definition b5928 : text := " 025134 RA2 ionospheric correction on S band                             M                          3       -32768  16 M                         3         5".
Definition b5929 : text := " 025135 Ionospheric correction from Doris on S band                      M                          3       -32768  16 M                         3         5".
Definition b5930 : text := " 025136 Ionospheric correction from model on S band                      M                          3       -32768  16 M                         3         5".
Definition b5931 : text := " 025137 Sea state bias correction on S band                              M                          3       -32768  16 M                         3         5".
Definition b5932 : text := " 025138 Average signal-to-noise ratio                                    NUMERIC                    0        -2048  12 NUMERIC                   0         4".
Definition b5933 : text := " 025140 Start channel                                                    NUMERIC                    0            0  14 NUMERIC                   0         5".
Definition b5934 : text := " 025141 End channel                                                      NUMERIC                    0            0  14 NUMERIC                   0         5".
Definition b5935 : text := " 025142 Channel scale factor                                             NUMERIC                    0            0   6 NUMERIC                   0         2".
Definition b5936 : text := " 025143 Linear coefficient                                               NUMERIC                    6     -5000000  24 NUMERIC                   6         8".
Definition b5937 : text := " 025144 Matrix dimension (i axis)                                        NUMERIC                    0            0   9 NUMERIC                   0         3".
Definition b5938 : text := " 025145 Matrix dimension (j axis)                                        NUMERIC                    0            0   9 NUMERIC                   0         3".
Definition b5939 : text := " 025150 Method of tropical cyclone intensity analysis using satellite da CODE TABLE                 0            0   4 CODE TABLE                0         2".
Definition b5940 : text := " 025151 Star relative magnitude                                          NUMERIC                    3       -20000  14 NUMERIC                   3         5".
Definition b5941 : text := " 025152 Star brightness temperature                                      K                          0            0  17 K                         0         6".
Definition b5942 : text := " 025153 Limb                                                             CODE TABLE                 0            0   2 CODE TABLE                0         1".
Definition b5943 : text := " 025160 Ku band net instrumental correction                              M                          4      -120000  18 M                         4         6".
Definition b5944 : text := " 025161 C band net instrumental correction                               M                          4      -120000  18 M                         4         6".
Definition b5945 : text := " 025162 Sea state bias correction on C band                              M                          4        -6000  13 M                         4         4".
Definition b5946 : text := " 025163 Altimeter ionospheric correction on Ku band                      M                          3       -32768  16 M                         3         5".
Definition b5947 : text := " 025164 Radiometer wet tropospheric correction                           M                          4        -5000  13 M                         4         4".
Definition b5948 : text := " 025170 Sampling interval (time)                                         S                          0            0  10 S                         0         4".
Definition b5949 : text := " 025171 Sample averaging period                                          S                          0            0  10 S                         0         4".
Definition b5950 : text := " 025172 Number of samples                                                NUMERIC                    0            0  10 NUMERIC                   0         4".
Definition b5951 : text := " 025174 SMOS information flag                                            FLAG TABLE                 0            0  14 FLAG TABLE                0         5".
Definition b5952 : text := " 025175 Modified residual                                                NUMERIC                    2            0  13 NUMERIC                   2         4".
Definition b5953 : text := " 026001 Principal time of daily reading in UTC of maximum temperature    H                          1            0  12 H                         1         3".
Definition b5954 : text := " 026002 Principal time of daily reading in UTC of minimum temperature    H                          1            0  12 H                         1         3".
Definition b5955 : text := " 026003 Time difference                                                  MIN                        0        -1440  12 MIN                       0         4".
Definition b5956 : text := " 026010 Hours included                                                   FLAG TABLE                 0            0  26 FLAG TABLE                0         9".
Definition b5957 : text := " 026020 Duration of precipitation                                        MIN                        0            0  11 MIN                       0         4".
Definition b5958 : text := " 026030 Measurement integration time                                     S                          2            0   8 S                         2         3".
Definition b5959 : text := " 027001 Latitude (high accuracy)                                         DEG                        5     -9000000  25 DEG                       5         7".
Definition b5960 : text := " 027002 Latitude (coarse accuracy)                                       DEG                        2        -9000  15 DEG                       2         4".
Definition b5961 : text := " 027003 Alternate latitude (coarse accuracy)                             DEG                        2        -9000  15 DEG                       2         4".
Definition b5962 : text := " 027004 Alternate latitude (high accuracy)                               DEG                        5     -9000000  25 DEG                       5         7".
Definition b5963 : text := " 027010 Footprint axis 1                                                 M                         -1            0  14 M                        -1         5".
Definition b5964 : text := " 027020 Satellite location counter                                       NUMERIC                    0            0  16 NUMERIC                   0         5".
Definition b5965 : text := " 027021 Satellite sublocation dimension                                  NUMERIC                    0            0  16 NUMERIC                   0         5".
Definition b5966 : text := " 027031 In direction of 0 degrees longitude, distance from the Earth's c M                          2  -1073741824  31 M                         2        10".
Definition b5967 : text := " 027080 Viewing azimuth angle (degree true)                              DEG                        2            0  16 DEG                       0         5".
Definition b5968 : text := " 028001 Longitude (high accuracy)                                        DEG                        5    -18000000  26 DEG                       5         8".
Definition b5969 : text := " 028002 Longitude (coarse accuracy)                                      DEG                        2       -18000  16 DEG                       2         5".
Definition b5970 : text := " 028003 Alternate longitude (coarse accuracy)                            DEG                        2       -18000  16 DEG                       2         5".
Definition b5971 : text := " 028004 Alternate longitude (high accuracy)                              DEG                        5    -18000000  26 DEG                       5         8".
Definition b5972 : text := " 028010 Footprint axis 2                                                 M                         -1            0  14 M                        -1         5".
Definition b5973 : text := " 028031 In direction 90 degrees East, distance from the Earth's centre   M                          2  -1073741824  31 M                         2        10".
Definition b5974 : text := " 029001 Projection type                                                  CODE TABLE                 0            0   3 CODE TABLE                0         1".
Definition b5975 : text := " 029002 Coordinate grid type                                             CODE TABLE                 0            0   3 CODE TABLE                0         1".
Definition b5976 : text := " 030001 Pixel value (4 bits)                                             NUMERIC                    0            0   4 NUMERIC                   0         2".
Definition b5977 : text := " 030002 Pixel value (8 bits)                                             NUMERIC                    0            0   8 NUMERIC                   0         3".
Definition b5978 : text := " 030004 Pixel value (16 bits)                                            NUMERIC                    0            0  16 NUMERIC                   0         5".
Definition b5979 : text := " 030010 Number of grid points                                            NUMERIC                    0            0  13 NUMERIC                   0         4".
Definition b5980 : text := " 030021 Number of pixels per row                                         NUMERIC                    0            0  12 NUMERIC                   0         4".
Definition b5981 : text := " 030022 Number of pixels per column                                      NUMERIC                    0            0  12 NUMERIC                   0         4".
Definition b5982 : text := " 030031 Picture type                                                     CODE TABLE                 0            0   4 CODE TABLE                0         2".
Definition b5983 : text := " 030032 Combination with other data                                      FLAG TABLE                 0            0  16 FLAG TABLE                0         6".
Definition b5984 : text := " 030033 Number of bins along the radial                                  NUMERIC                    0            0  12 NUMERIC                   0         4".
Definition b5985 : text := " 030034 Number of azimuths                                               NUMERIC                    0            0  12 NUMERIC                   0         4".
Definition b5986 : text := " 031000 Short delayed descriptor replication factor                      NUMERIC                    0            0   1".
Definition b5987 : text := " 031001 Delayed descriptor replication factor                            NUMERIC                    0            0   8".
Definition b5988 : text := " 031002 Extended delayed descriptor replication factor                   NUMERIC                    0            0  16".
Definition b5989 : text := " 031011 Delayed descriptor and data repetition factor                    NUMERIC                    0            0   8".
Definition b5990 : text := " 031012 Extended delayed descriptor and data repetition factor           NUMERIC                    0            0  16".
Definition b5991 : text := " 031021 Associated field significance                                    CODE TABLE                 0            0   6".
Definition b5992 : text := " 031031 Data present indicator                                           FLAG TABLE                 0            0   1".
Definition b5993 : text := " 033002 Quality information                                              CODE TABLE                 0            0   2 CODE TABLE                0         1".
Definition b5994 : text := " 033003 Quality information                                              CODE TABLE                 0            0   3 CODE TABLE                0         1".
Definition b5995 : text := " 033005 Quality information (AWS data)                                   FLAG TABLE                 0            0  30 FLAG TABLE                0        10".
Definition b5996 : text := " 033006 Internal measurement status information (AWS)                    CODE TABLE                 0            0   3 CODE TABLE                0         1".
Definition b5997 : text := " 033007 Per cent confidence                                              %                          0            0   7 %                         0         3".
Definition b5998 : text := " 033009 Relative error                                                   %                          2            0  14 %                         2         5".
Definition b5999 : text := " 033015 Data quality check indicator                                     CODE TABLE                 0            0   6 CODE TABLE                0         2".
Definition b6000 : text := " 033020 Quality control indication of following value                    CODE TABLE                 0            0   3 CODE TABLE                0         1".
Definition b6001 : text := " 033021 Quality of following value                                       CODE TABLE                 0            0   2 CODE TABLE                0         1".
Definition b6002 : text := " 033022 Quality of buoy satellite transmission                           CODE TABLE                 0            0   2 CODE TABLE                0         1".
Definition b6003 : text := " 033023 Quality of buoy location                                         CODE TABLE                 0            0   2 CODE TABLE                0         1".
Definition b6004 : text := " 033024 Station elevation quality mark (for mobile stations)             CODE TABLE                 0            0   4 CODE TABLE                0         2".
Definition b6005 : text := " 033025 ACARS interpolated values indicator                              CODE TABLE                 0            0   3 CODE TABLE                0         1".
Definition b6006 : text := " 033026 Moisture quality                                                 CODE TABLE                 0            0   6 CODE TABLE                0         2".
Definition b6007 : text := " 033027 Location quality class (range of radius of 66 % confidence)      CODE TABLE                 0            0   3 CODE TABLE                0         1".
Definition b6008 : text := " 033028 Snapshot overall quality                                         CODE TABLE                 0            0   3 CODE TABLE                0         1".
Definition b6009 : text := " 033030 Scan line status flags for ATOVS                                 FLAG TABLE                 0            0  24 FLAG TABLE                0         8".
Definition b6010 : text := " 033031 Scan line quality flags for ATOVS                                FLAG TABLE                 0            0  24 FLAG TABLE                0         8".
Definition b6011 : text := " 033032 Channel quality flags for ATOVS                                  FLAG TABLE                 0            0  24 FLAG TABLE                0         8".
Definition b6012 : text := " 033033 Field of view quality flags for ATOVS                            FLAG TABLE                 0            0  24 FLAG TABLE                0         8".
Definition b6013 : text := " 033035 Manual/automatic quality control                                 CODE TABLE                 0            0   4 CODE TABLE                0         2".
Definition b6014 : text := " 033036 Nominal confidence threshold                                     %                          0            0   7 %                         0         3".
Definition b6015 : text := " 033037 Wind correlation error                                           FLAG TABLE                 0            0  20 FLAG TABLE                0         7".
Definition b6016 : text := " 033038 Quality flags for ground-based GNSS data                         FLAG TABLE                 0            0  10 FLAG TABLE                0         4".
Definition b6017 : text := " 033039 Quality flags for radio occultation data                         FLAG TABLE                 0            0  16 FLAG TABLE                0         6".
Definition b6018 : text := " 033040 Confidence interval                                              %                          0            0   7 %                         0         3".
Definition b6019 : text := " 033041 Attribute of following value                                     CODE TABLE                 0            0   2 CODE TABLE                0         1".
Definition b6020 : text := " 033042 Type of limit represented by following value                     CODE TABLE                 0            0   3 CODE TABLE                0         1".
Definition b6021 : text := " 033043 AST confidence                                                   FLAG TABLE                 0            0   8 FLAG TABLE                0         3".
Definition b6022 : text := " 033044 ASAR quality information                                         FLAG TABLE                 0            0  15 FLAG TABLE                0         5".
Definition b6023 : text := " 033045 Probability of following event                                   %                          0            0   7 %                         0         3".
Definition b6024 : text := " 033046 Conditional probability of following event with respect to speci %                          0            0   7 %                         0         3".
Definition b6025 : text := " 033047 Measurement confidence data                                      FLAG TABLE                 0            0  31 FLAG TABLE                0        11".
Definition b6026 : text := " 033048 Confidence measure of SAR inversion                              CODE TABLE                 0            0   2 CODE TABLE                0         1".
Definition b6027 : text := " 033049 Confidence measure of wind retrieval                             CODE TABLE                 0            0   2 CODE TABLE                0         1".
Definition b6028 : text := " 033050 Global GTSPP quality flag                                        CODE TABLE                 0            0   4 CODE TABLE                0         2".
Definition b6029 : text := " 033052 S-band ocean retracking quality                                  FLAG TABLE                 0            0  21 FLAG TABLE                0         7".
Definition b6030 : text := " 033053 Ku band ocean retracking quality                                 FLAG TABLE                 0            0  21 FLAG TABLE                0         7".
Definition b6031 : text := " 033060 GqisFlagQual - individual IASI-System quality flag               CODE TABLE                 0            0   2 CODE TABLE                0         1".
Definition b6032 : text := " 033061 GqisQualIndex - indicator for instrument noise performance (cont %                          0            0   7 %                         0         3".
Definition b6033 : text := " 033062 GqisQualIndexLoc - indicator for geometric quality index         %                          0            0   7 %                         0         3".
Definition b6034 : text := " 033063 GqisQualIndexRad - indicator for instrument noise performance (c %                          0            0   7 %                         0         3".
Definition b6035 : text := " 033064 GqisQualIndexSpect - indicator for instrument noise performance  %                          0            0   7 %                         0         3".
Definition b6036 : text := " 033065 GqisSysTecSondQual - output of system TEC (Technical Expertise C NUMERIC                    0            0  24 NUMERIC                   0         8".
Definition b6037 : text := " 033070 Total ozone quality                                              CODE TABLE                 0            0   4 CODE TABLE                0         2".
Definition b6038 : text := " 033071 Profile ozone quality                                            CODE TABLE                 0            0   4 CODE TABLE                0         2".
Definition b6039 : text := " 033072 Ozone error                                                      CODE TABLE                 0            0   5 CODE TABLE                0         2".
Definition b6040 : text := " 033075 Scan-level quality flags                                         FLAG TABLE                 0            0  13 FLAG TABLE                0         5".
Definition b6041 : text := " 033076 Calibration quality flags                                        FLAG TABLE                 0            0   9 FLAG TABLE                0         3".
Definition b6042 : text := " 033077 Field-of-view quality flags                                      FLAG TABLE                 0            0  19 FLAG TABLE                0         7".
Definition b6043 : text := " 033078 Geolocation quality                                              CODE TABLE                 0            0   4 CODE TABLE                0         2".
Definition b6044 : text := " 033079 Granule level quality flags                                      FLAG TABLE                 0            0  16 FLAG TABLE                0         6".
Definition b6045 : text := " 033080 Scan level quality flags                                         FLAG TABLE                 0            0  20 FLAG TABLE                0         7".
Definition b6046 : text := " 033081 Channel data quality flags                                       FLAG TABLE                 0            0  12 FLAG TABLE                0         4".
Definition b6047 : text := " 033082 Geolocation quality flags                                        FLAG TABLE                 0            0  16 FLAG TABLE                0         6".
Definition b6048 : text := " 033083 Radiance data quality flags                                      FLAG TABLE                 0            0  16 FLAG TABLE                0         6".
Definition b6049 : text := " 035000 FM and Regional Code number                                      CODE TABLE                 0            0  10 CODE TABLE                0         3".
Definition b6050 : text := " 035001 Time-frame for monitoring                                        CODE TABLE                 0            0   3 CODE TABLE                0         1".
Definition b6051 : text := " 035011 Number of reports actually received                              NUMERIC                    0            0  14 NUMERIC                   0         4".
Definition b6052 : text := " 035021 Bulletin being monitored (TTAAii)                                CCITTIA5                   0            0  48 CHARACTER                 0         6".
Definition b6053 : text := " 035022 Bulletin being monitored (YYGGgg)                                CCITTIA5                   0            0  48 CHARACTER                 0         6".
Definition b6054 : text := " 035023 Bulletin being monitored (CCCC)                                  CCITTIA5                   0            0  32 CHARACTER                 0         4".
Definition b6055 : text := " 035024 Bulletin being monitored (BBB)                                   CCITTIA5                   0            0  24 CHARACTER                 0         3".
Definition b6056 : text := " 035030 Discrepancies in the availability of expected data               CODE TABLE                 0            0   4 CODE TABLE                0         1".
Definition b6057 : text := " 035031 Qualifier on monitoring results                                  CODE TABLE                 0            0   7 CODE TABLE                0         2".
Definition b6058 : text := " 035032 Cause of missing data                                            CODE TABLE                 0            0   4 CODE TABLE                0         1".
Definition b6059 : text := " 035033 Observation and collection deficiencies                          CODE TABLE                 0            0   7 CODE TABLE                0         2".
Definition b6060 : text := " 035034 Statistical trends for availability of data (during the survey p CODE TABLE                 0            0   3 CODE TABLE                0         1".
Definition b6061 : text := " 035035 Reason for termination                                           CODE TABLE                 0            0   5 CODE TABLE                0         2".
Definition b6062 : text := " 040001 Surface soil moisture (ms)                                       %                          1            0  10 %                         1         4".
Definition b6063 : text := " 040002 Estimated error in surface soil moisture                         %                          1            0  10 %                         1         4".
Definition b6064 : text := " 040003 Mean surface soil moisture                                       NUMERIC                    3            0  10 NUMERIC                   3         4".
Definition b6065 : text := " 040004 Rain fall detection                                              NUMERIC                    3            0  10 NUMERIC                   3         4".
Definition b6066 : text := " 040005 Soil moisture correction flag                                    FLAG TABLE                 0            0   8 FLAG TABLE                0         3".
Definition b6067 : text := " 040006 Soil moisture processing flag                                    FLAG TABLE                 0            0  16 FLAG TABLE                0         6".
Definition b6068 : text := " 040007 Soil moisture quality                                            %                          1            0  10 %                         1         4".
Definition b6069 : text := " 040008 Frozen land surface fraction                                     %                          1            0  10 %                         1         4".
Definition b6070 : text := " 040009 Inundation and wetland fraction                                  %                          1            0  10 %                         1         4".
Definition b6071 : text := " 040010 Topographic complexity                                           %                          1            0  10 %                         1         4".
Definition b6072 : text := " 040011 Interpolation flag                                               FLAG TABLE                 0            0   8 FLAG TABLE                0         3".
Definition b6073 : text := " 040012 Radiometer data quality flag                                     FLAG TABLE                 0            0   8 FLAG TABLE                0         3".
Definition b6074 : text := " 040013 Radiometer brightness temperature interpretation flag            CODE TABLE                 0            0   3 CODE TABLE                0         1".
Definition b6075 : text := " 040014 High-frequency fluctuations of the sea surface topography correc M                          4        -3000  13 M                         4         4".
Definition b6076 : text := " 040015 Normalised differential vegetation index (NDVI)                  NUMERIC                    2         -100   8 NUMERIC                   2         3".
Definition b6077 : text := " 040016 Residual RMS in band                                             NUMERIC                    3            0  14 NUMERIC                   3         5".
Definition b6078 : text := " 040017 Non-normalised principal component score                         NUMERIC                    0  -1073741824  31 NUMERIC                   0        10".
Definition b6079 : text := " 040018 GIacAvgImagIIS - average of imager measurements                  W M-2 SR-1 M               6            0  24 W M-2 SR-1 M              6         8".
Definition b6080 : text := " 040019 GIacVarImagIIS - variance of imager measurements                 W M-2 SR-1 M               6            0  24 W M-2 SR-1 M              6         8".
Definition b6081 : text := " 040020 GqisFlagQualDetailed - quality flag for the system               FLAG TABLE                 0            0  17 FLAG TABLE                0         6".
Definition b6082 : text := " 040021 Fraction of weighted AVHRR pixel in IASI FOV covered with snow/i %                          0            0   7 %                         0         3".
Definition b6083 : text := " 040022 Number of missing, bad or failed AVHRR pixels                    NUMERIC                    0            0   7 NUMERIC                   0         3".
Definition b6084 : text := " 040023 Auxiliary altimeter state flags                                  FLAG TABLE                 0            0   5 FLAG TABLE                0         2".
Definition b6085 : text := " 040024 Meteorological map availability                                  CODE TABLE                 0            0   3 CODE TABLE                0         1".
Definition b6086 : text := " 040025 Interpolation flag for mean diurnal tide                         CODE TABLE                 0            0   2 CODE TABLE                0         1".
Definition b6087 : text := " 040026 Score quantization factor                                        NUMERIC                    2            0  16 NUMERIC                   2         5".
Definition b6088 : text := " 001003 WMO REGION NUMBER/GEOGRAPHICAL AREA                              CODE TABLE 1003            0            0   3 CODE TABLE 0              0         1".
Definition b6089 : text := " 001004 WMO REGION SUB-AREA                                              NUMERIC                    0            0   3 NUMERIC                   0         1".
Definition b6090 : text := " 001007 SATELLITE IDENTIFIER                                             CODE TABLE 1007            0            0  10 CODE TABLE 0              0         4".
Definition b6091 : text := " 001012 DIRECTION OF MOTION OF MOVING OBSERVING PLATFORM (DEGREE TRUE)   DEG                        0            0   9 DEG                       0         3".
Definition b6092 : text := " 001013 SPEED OF MOTION OF MOVING OBSERVING PLATFORM                     M/S                        0            0  10 M/S                       0         3".
Definition b6093 : text := " 001022 NAME OF FEATURE                                                  CCITTIA5                   0            0 224 CHARACTER                 0        28".
Definition b6094 : text := " 001024 WIND SPEED SOURCE                                                CODE TABLE 1024            0            0   5 CODE TABLE 0              0         2".
Definition b6095 : text := " 001028 AEROSOL OPTICAL DEPTH (AOD) SOURCE                               CODE TABLE 1028            0            0   5 CODE TABLE 0              0         2".
Definition b6096 : text := " 001029 SSI SOURCE                                                       CODE TABLE 1029            0            0   5 CODE TABLE 0              0         2".
Definition b6097 : text := " 001031 IDENTIFICATION OF ORIGINATING/GENERATING CENTRE                  CODE TABLE 1031            0            0  16 CODE TABLE 0              0         5".
Definition b6098 : text := " 001032 GENERATING APPLICATION                                           CODETABLEDEFINEDBYORIGIN   0            0   8 CODE TABLE 0              0         3".
Definition b6099 : text := " 001033 IDENTIFICATION OF ORIGINATING/GENERATING CENTRE                  COMMONCODETABLEC-1         0            0   8 COMMON CODE TABLE C-1     0         3".
Definition b6100 : text := " 001034 IDENTIFICATION OF ORIGINATING/GENERATING SUB-CENTRE              COMMONCODETABLEC-12        0            0   8 COMMON CODE TABLE C-12    0         3".
Definition b6101 : text := " 001035 ORIGINATING CENTRE                                               COMMONCODETABLEC-11        0            0  16 COMMON CODE TABLE C-11    0         5".
Definition b6102 : text := " 001036 AGENCY IN CHARGE OF OPERATING THE OBSERVING PLATFORM             CODE TABLE 1036            0            0  20 CODE TABLE 0              0         7".
Definition b6103 : text := " 001038 SOURCE OF SEA ICE FRACTION                                       CODE TABLE 1038            0            0   5 CODE TABLE 0              0         2".
Definition b6104 : text := " 001041 ABSOLUTE PLATFORM VELOCITY - FIRST COMPONENT                     M/S                        5  -1073741824  31 M/S                       5        10".
Definition b6105 : text := " 001042 ABSOLUTE PLATFORM VELOCITY - SECOND COMPONENT                    M/S                        5  -1073741824  31 M/S                       5        10".
Definition b6106 : text := " 001043 ABSOLUTE PLATFORM VELOCITY - THIRD COMPONENT                     M/S                        5  -1073741824  31 M/S                       5        10".
Definition b6107 : text := " 001052 PLATFORM TRANSMITTER ID                                          CODE TABLE 1052            0            0   3 CODE TABLE 0              0         1".
Definition b6108 : text := " 001082 RADIOSONDE ASCENSION NUMBER                                      NUMERIC                    0            0  14 NUMERIC                   0         4".
Definition b6109 : text := " 001083 RADIOSONDE RELEASE NUMBER                                        NUMERIC                    0            0   3 NUMERIC                   0         1".
Definition b6110 : text := " 001090 TECHNIQUE FOR MAKING UP INITIAL PERTURBATIONS                    CODE TABLE 1090            0            0   8 CODE TABLE 0              0         3".
Definition b6111 : text := " 001092 TYPE OF ENSEMBLE FORECAST                                        CODE TABLE 1092            0            0   8 CODE TABLE 0              0         3".
Definition b6112 : text := " 001097 STAR CATALOG NUMBER                                              NUMERIC                    0            0  13 NUMERIC                   0         4".
Definition b6113 : text := " 001098 TYPE OF PRODUCT                                                  CODE TABLE 1098            0            0  12 CODE TABLE 0              0         4".
Definition b6114 : text := " 001099 UNIQUE PRODUCT DEFINITION                                        CCITTIA5                   0            0 248 CHARACTER                 0        31".
Definition b6115 : text := " 001101 STATE IDENTIFIER                                                 CODE TABLE 1101            0            0  10 CODE TABLE 0              0         3".
Definition b6116 : text := " 001110 AIRCRAFT TAIL NUMBER                                             CCITTIA5                   0            0  48 CHARACTER                 0         6".
Definition b6117 : text := " 001111 ORIGINATION AIRPORT                                              CCITTIA5                   0            0  24 CHARACTER                 0         3".
Definition b6118 : text := " 001112 DESTINATION AIRPORT                                              CCITTIA5                   0            0  24 CHARACTER                 0         3".
Definition b6119 : text := " 002001 TYPE OF STATION                                                  CODE TABLE 2001            0            0   2 CODE TABLE 0              0         1".
Definition b6120 : text := " 002002 TYPE OF INSTRUMENTATION FOR WIND MEASUREMENT                     FLAGTABLE                  0            0   4 FLAG TABLE                0         2".
Definition b6121 : text := " 002003 TYPE OF MEASURING EQUIPMENT USED                                 CODE TABLE 2003            0            0   4 CODE TABLE 0              0         2".
Definition b6122 : text := " 002004 TYPE OF INSTRUMENTATION FOR EVAPORATION MEASUREMENT OR TYPE OF C CODE TABLE 2004            0            0   4 CODE TABLE 0              0         2".
Definition b6123 : text := " 002007 TYPE OF SENSOR FOR WATER LEVEL MEASURING INSTRUMENT              CODE TABLE 2007            0            0   4 CODE TABLE 0              0         2".
Definition b6124 : text := " 002011 RADIOSONDE TYPE                                                  CODE TABLE 2011            0            0   8 CODE TABLE 0              0         3".
Definition b6125 : text := " 002012 RADIOSONDE COMPUTATIONAL METHOD                                  CODE TABLE 2012            0            0   4 CODE TABLE 0              0         2".
Definition b6126 : text := " 002013 SOLAR AND INFRARED RADIATION CORRECTION                          CODE TABLE 2013            0            0   4 CODE TABLE 0              0         2".
Definition b6127 : text := " 002014 TRACKING TECHNIQUE/STATUS OF SYSTEM USED                         CODE TABLE 2014            0            0   7 CODE TABLE 0              0         3".
Definition b6128 : text := " 002015 RADIOSONDE COMPLETENESS                                          CODE TABLE 2015            0            0   4 CODE TABLE 0              0         2".
Definition b6129 : text := " 002016 RADIOSONDE CONFIGURATION                                         FLAGTABLE                  0            0   5 FLAG TABLE                0         2".
Definition b6130 : text := " 002019 SATELLITE INSTRUMENTS                                            CODE TABLE 2019            0            0  11 CODE TABLE 0              0         4".
Definition b6131 : text := " 002020 SATELLITE CLASSIFICATION                                         CODE TABLE 2020            0            0   9 CODE TABLE 0              0         3".
Definition b6132 : text := " 002021 SATELLITE INSTRUMENT DATA USED IN PROCESSING                     FLAGTABLE                  0            0   9 FLAG TABLE                0         3".
Definition b6133 : text := " 002022 SATELLITE DATA-PROCESSING TECHNIQUE USED                         FLAGTABLE                  0            0   8 FLAG TABLE                0         3".
Definition b6134 : text := " 002023 SATELLITE-DERIVED WIND COMPUTATION METHOD                        CODE TABLE 2023            0            0   4 CODE TABLE 0              0         2".
Definition b6135 : text := " 002024 INTEGRATED MEAN HUMIDITY COMPUTATIONAL METHOD                    CODE TABLE 2024            0            0   4 CODE TABLE 0              0         2".
Definition b6136 : text := " 002025 SATELLITE CHANNEL(S) USED IN COMPUTATION                         FLAGTABLE                  0            0  25 FLAG TABLE                0         9".
Definition b6137 : text := " 002026 CROSS-TRACK RESOLUTION                                           M                          2            0  12 M                         2         4".
Definition b6138 : text := " 002027 ALONG-TRACK RESOLUTION                                           M                          2            0  12 M                         2         4".
Definition b6139 : text := " 002028 SEGMENT SIZE AT NADIR IN X-DIRECTION                             M                          0            0  18 M                         0         6".
Definition b6140 : text := " 002029 SEGMENT SIZE AT NADIR IN Y-DIRECTION                             M                          0            0  18 M                         0         6".
Definition b6141 : text := " 002030 METHOD OF CURRENT MEASUREMENT                                    CODE TABLE 2030            0            0   3 CODE TABLE 0              0         1".
Definition b6142 : text := " 002031 DURATION AND TIME OF CURRENT MEASUREMENT                         CODE TABLE 2031            0            0   5 CODE TABLE 0              0         2".
Definition b6143 : text := " 002032 INDICATOR FOR DIGITIZATION                                       CODE TABLE 2032            0            0   2 CODE TABLE 0              0         1".
Definition b6144 : text := " 002033 METHOD OF SALINITY/DEPTH MEASUREMENT                             CODE TABLE 2033            0            0   3 CODE TABLE 0              0         1".
Definition b6145 : text := " 002034 DROGUE TYPE                                                      CODE TABLE 2034            0            0   5 CODE TABLE 0              0         2".
Definition b6146 : text := " 002036 BUOY TYPE                                                        CODE TABLE 2036            0            0   2 CODE TABLE 0              0         1".
Definition b6147 : text := " 002037 METHOD OF TIDAL OBSERVATION                                      CODE TABLE 2037            0            0   3 CODE TABLE 0              0         1".
Definition b6148 : text := " 002038 METHOD OF WATER TEMPERATURE AND/OR SALINITY MEASUREMENT          CODE TABLE 2038            0            0   4 CODE TABLE 0              0         2".
Definition b6149 : text := " 002039 METHOD OF WET-BULB TEMPERATURE MEASUREMENT                       CODE TABLE 2039            0            0   3 CODE TABLE 0              0         1".
Definition b6150 : text := " 002040 METHOD OF REMOVING VELOCITY AND MOTION OF PLATFORM FROM CURRENT  CODE TABLE 2040            0            0   4 CODE TABLE 0              0         2".
Definition b6151 : text := " 002041 METHOD FOR ESTIMATING REPORTS RELATED TO SYNOPTIC FEATURES       CODE TABLE 2041            0            0   6 CODE TABLE 0              0         2".
Definition b6152 : text := " 002042 INDICATOR FOR SEA SURFACE CURRENT SPEED                          CODE TABLE 2042            0            0   2 CODE TABLE 0              0         1".
Definition b6153 : text := " 002044 INDICATOR FOR METHOD OF CALCULATING SPECTRAL WAVE DATA           CODE TABLE 2044            0            0   4 CODE TABLE 0              0         2".
Definition b6154 : text := " 002045 INDICATOR FOR TYPE OF PLATFORM                                   CODE TABLE 2045            0            0   4 CODE TABLE 0              0         2".
Definition b6155 : text := " 002046 WAVE MEASUREMENT INSTRUMENTATION                                 CODE TABLE 2046            0            0   4 CODE TABLE 0              0         2".
Definition b6156 : text := " 002047 DEEP-OCEAN TSUNAMETER TYPE                                       CODE TABLE 2047            0            0   7 CODE TABLE 0              0         2".
Definition b6157 : text := " 002048 SATELLITE SENSOR INDICATOR                                       CODE TABLE 2048            0            0   4 CODE TABLE 0              0         2".
Definition b6158 : text := " 002049 GEOSTATIONARY SATELLITE DATA-PROCESSING TECHNIQUE USED           FLAGTABLE                  0            0   8 FLAG TABLE                0         3".
Definition b6159 : text := " 002050 GEOSTATIONARY SOUNDER SATELLITE CHANNELS USED                    FLAGTABLE                  0            0  20 FLAG TABLE                0         7".
Definition b6160 : text := " 002051 INDICATOR TO SPECIFY OBSERVING METHOD FOR EXTREME TEMPERATURES   CODE TABLE 2051            0            0   4 CODE TABLE 0              0         2".
Definition b6161 : text := " 002052 GEOSTATIONARY IMAGER SATELLITE CHANNELS USED                     FLAGTABLE                  0            0   6 FLAG TABLE                0         2".
Definition b6162 : text := " 002053 GOES-I/M BRIGHTNESS TEMPERATURE CHARACTERISTICS                  CODE TABLE 2053            0            0   4 CODE TABLE 0              0         2".
Definition b6163 : text := " 002054 GOES-I/M SOUNDINGS PARAMETER CHARACTERISTICS                     CODE TABLE 2054            0            0   4 CODE TABLE 0              0         2".
Definition b6164 : text := " 002055 GEOSTATIONARY SOUNDINGS STATISTICAL PARAMETERS                   CODE TABLE 2055            0            0   4 CODE TABLE 0              0         2".
Definition b6165 : text := " 002056 GEOSTATIONARY SOUNDINGS ACCURACY STATISTICS                      CODE TABLE 2056            0            0   4 CODE TABLE 0              0         2".
Definition b6166 : text := " 002057 ORIGIN OF FIRST-GUESS INFORMATION FOR GOES-I/M SOUNDINGS         CODE TABLE 2057            0            0   4 CODE TABLE 0              0         2".
Definition b6167 : text := " 002058 VALID TIMES OF FIRST GUESS INFORMATION FOR GOES-I/M SOUNDINGS    CODE TABLE 2058            0            0   4 CODE TABLE 0              0         2".
Definition b6168 : text := " 002059 ORIGIN OF ANALYSIS INFORMATION FOR GOES-I/M SOUNDINGS            CODE TABLE 2059            0            0   4 CODE TABLE 0              0         2".
Definition b6169 : text := " 002060 ORIGIN OF SURFACE INFORMATION FOR GOES-I/M SOUNDINGS             CODE TABLE 2060            0            0   4 CODE TABLE 0              0         2".
Definition b6170 : text := " 002061 AIRCRAFT NAVIGATIONAL SYSTEM                                     CODE TABLE 2061            0            0   3 CODE TABLE 0              0         1".
Definition b6171 : text := " 002062 TYPE OF AIRCRAFT DATA RELAY SYSTEM                               CODE TABLE 2062            0            0   4 CODE TABLE 0              0         2".
Definition b6172 : text := " 002063 AIRCRAFT ROLL ANGLE                                              DEG                        2       -18000  16 DEG                       2         5".
Definition b6173 : text := " 002064 AIRCRAFT ROLL ANGLE QUALITY                                      CODE TABLE 2064            0            0   2 CODE TABLE 0              0         1".
Definition b6174 : text := " 002065 ACARS GROUND-RECEIVING STATION                                   CCITTIA5                   0            0  40 CHARACTER                 0         5".
Definition b6175 : text := " 002066 RADIOSONDE GROUND RECEIVING SYSTEM                               CODE TABLE 2066            0            0   6 CODE TABLE 0              0         2".
Definition b6176 : text := " 002070 ORIGINAL SPECIFICATION OF LATITUDE/LONGITUDE                     CODE TABLE 2070            0            0   4 CODE TABLE 0              0         2".
Definition b6177 : text := " 002080 BALLOON MANUFACTURER                                             CODE TABLE 2080            0            0   6 CODE TABLE 0              0         2".
Definition b6178 : text := " 002081 TYPE OF BALLOON                                                  CODE TABLE 2081            0            0   5 CODE TABLE 0              0         2".
Definition b6179 : text := " 002083 TYPE OF BALLOON SHELTER                                          CODE TABLE 2083            0            0   4 CODE TABLE 0              0         2".
Definition b6180 : text := " 002084 TYPE OF GAS USED IN BALLOON                                      CODE TABLE 2084            0            0   4 CODE TABLE 0              0         2".
Definition b6181 : text := " 002095 TYPE OF PRESSURE SENSOR                                          CODE TABLE 2095            0            0   5 CODE TABLE 0              0         2".
Definition b6182 : text := " 002096 TYPE OF TEMPERATURE SENSOR                                       CODE TABLE 2096            0            0   5 CODE TABLE 0              0         2".
Definition b6183 : text := " 002097 TYPE OF HUMIDITY SENSOR                                          CODE TABLE 2097            0            0   5 CODE TABLE 0              0         2".
Definition b6184 : text := " 002099 POLARIZATION                                                     CODE TABLE 2099            0            0   3 CODE TABLE 0              0         1".
Definition b6185 : text := " 002101 TYPE OF ANTENNA                                                  CODE TABLE 2101            0            0   4 CODE TABLE 0              0         2".
Definition b6186 : text := " 002103 RADOME                                                           FLAGTABLE                  0            0   2 FLAG TABLE                0         1".
Definition b6187 : text := " 002104 ANTENNA POLARIZATION                                             CODE TABLE 2104            0            0   4 CODE TABLE 0              0         2".
Definition b6188 : text := " 002106 3-DB BEAMWIDTH                                                   DEG                        1            0   6 DEG                       1         2".
Definition b6189 : text := " 002109 ANTENNA SPEED (AZIMUTH)                                          DEG/S                      2            0  12 DEG/S                     2         4".
Definition b6190 : text := " 002110 ANTENNA SPEED (ELEVATION)                                        DEG/S                      2            0  12 DEG/S                     2         4".
Definition b6191 : text := " 002111 RADAR INCIDENCE ANGLE                                            DEG                        1            0  10 DEG                       1         4".
Definition b6192 : text := " 002112 RADAR LOOK ANGLE                                                 DEG                        1            0  12 DEG                       1         4".
Definition b6193 : text := " 002114 ANTENNA EFFECTIVE SURFACE AREA                                   M2                         0            0  15 M2                        0         5".
Definition b6194 : text := " 002115 TYPE OF SURFACE OBSERVING EQUIPMENT                              CODE TABLE 2115            0            0   5 CODE TABLE 0              0         2".
Definition b6195 : text := " 002119 INSTRUMENT OPERATIONS                                            CODE TABLE 2119            0            0   3 CODE TABLE 0              0         1".
Definition b6196 : text := " 002131 SENSITIVITY TIME CONTROL (STC)                                   FLAGTABLE                  0            0   2 FLAG TABLE                0         1".
Definition b6197 : text := " 002132 AZIMUTH POINTING ACCURACY                                        DEG                        2            0   6 DEG                       2         2".
Definition b6198 : text := " 002133 ELEVATION POINTING ACCURACY                                      DEG                        2            0   6 DEG                       2         2".
Definition b6199 : text := " 002134 ANTENNA BEAM AZIMUTH                                             DEG                        2            0  16 DEG                       2         5".
Definition b6200 : text := " 002135 ANTENNA ELEVATION                                                DEG                        2        -9000  15 DEG                       2         5".
Definition b6201 : text := " 002137 RADAR DUAL PRF RATIO                                             CODE TABLE 2137            0            0   4 CODE TABLE 0              0         2".
Definition b6202 : text := " 002138 ANTENNA ROTATION DIRECTION                                       CODE TABLE 2138            0            0   2 CODE TABLE 0              0         1".
Definition b6203 : text := " 002140 SATELLITE RADAR BEAM AZIMUTH ANGLE                               DEG                        0            0   9 DEG                       0         3".
Definition b6204 : text := " 002142 OZONE INSTRUMENT SERIAL NUMBER/IDENTIFICATION                    CCITTIA5                   0            0  32 CHARACTER                 0         4".
Definition b6205 : text := " 002143 OZONE INSTRUMENT TYPE                                            CODE TABLE 2143            0            0   7 CODE TABLE 0              0         3".
Definition b6206 : text := " 002144 LIGHT SOURCE TYPE FOR BREWER SPECTROPHOTOMETER                   CODE TABLE 2144            0            0   4 CODE TABLE 0              0         2".
Definition b6207 : text := " 002145 WAVELENGTH SETTING FOR DOBSON INSTRUMENTS                        CODE TABLE 2145            0            0   4 CODE TABLE 0              0         2".
Definition b6208 : text := " 002146 SOURCE CONDITIONS FOR DOBSON INSTRUMENTS                         CODE TABLE 2146            0            0   4 CODE TABLE 0              0         2".
Definition b6209 : text := " 002147 METHOD OF TRANSMISSION TO COLLECTION CENTRE                      CODE TABLE 2147            0            0   7 CODE TABLE 0              0         2".
Definition b6210 : text := " 002148 DATA COLLECTION AND/OR LOCATION SYSTEM                           CODE TABLE 2148            0            0   5 CODE TABLE 0              0         2".
Definition b6211 : text := " 002149 TYPE OF DATA BUOY                                                CODE TABLE 2149            0            0   6 CODE TABLE 0              0         2".
Definition b6212 : text := " 002150 TOVS/ATOVS/AVHRR INSTRUMENTATION CHANNEL NUMBER                  CODE TABLE 2150            0            0   6 CODE TABLE 0              0         2".
Definition b6213 : text := " 002151 RADIOMETER IDENTIFIER                                            CODE TABLE 2151            0            0  11 CODE TABLE 0              0         4".
Definition b6214 : text := " 002152 SATELLITE INSTRUMENT USED IN DATA PROCESSING                     FLAGTABLE                  0            0  31 FLAG TABLE                0        10".
Definition b6215 : text := " 002158 RA-2 INSTRUMENTS                                                 FLAGTABLE                  0            0   9 FLAG TABLE                0         3".
Definition b6216 : text := " 002159 MWR INSTRUMENTS                                                  FLAGTABLE                  0            0   8 FLAG TABLE                0         3".
Definition b6217 : text := " 002160 WAVE LENGTH OF THE RADAR                                         CODE TABLE 2160            0            0   4 CODE TABLE 0              0         2".
Definition b6218 : text := " 002163 HEIGHT ASSIGNMENT METHOD                                         CODE TABLE 2163            0            0   4 CODE TABLE 0              0         2".
Definition b6219 : text := " 002164 TRACER CORRELATION METHOD                                        CODE TABLE 2164            0            0   3 CODE TABLE 0              0         1".
Definition b6220 : text := " 002165 RADIANCE TYPE FLAGS                                              FLAGTABLE                  0            0  15 FLAG TABLE                0         5".
Definition b6221 : text := " 002166 RADIANCE TYPE                                                    CODE TABLE 2166            0            0   4 CODE TABLE 0              0         2".
Definition b6222 : text := " 002167 RADIANCE COMPUTATIONAL METHOD                                    CODE TABLE 2167            0            0   4 CODE TABLE 0              0         2".
Definition b6223 : text := " 002169 ANEMOMETER TYPE                                                  CODE TABLE 2169            0            0   4 CODE TABLE 0              0         2".
Definition b6224 : text := " 002171 INSTRUMENT SERIAL NUMBER FOR WATER TEMPERATURE PROFILE MEASUREME CCITTIA5                   0            0  64 CCITT IA5                 0         8".
Definition b6225 : text := " 002172 PRODUCT TYPE FOR RETRIEVED ATMOSPHERIC GASES                     CODE TABLE 2172            0            0   8 CODE TABLE 0              0         3".
Definition b6226 : text := " 002173 SQUARE OF THE OFF-NADIR ANGLE                                    DEG2                       4            0  10 DEG2                      4         4".
Definition b6227 : text := " 002175 METHOD OF PRECIPITATION MEASUREMENT                              CODE TABLE 2175            0            0   4 CODE TABLE 0              0         2".
Definition b6228 : text := " 002176 METHOD OF STATE OF GROUND MEASUREMENT                            CODE TABLE 2176            0            0   4 CODE TABLE 0              0         2".
Definition b6229 : text := " 002177 METHOD OF SNOW DEPTH MEASUREMENT                                 CODE TABLE 2177            0            0   4 CODE TABLE 0              0         2".
Definition b6230 : text := " 002178 METHOD OF LIQUID CONTENT MEASUREMENT OF PRECIPITATION            CODE TABLE 2178            0            0   4 CODE TABLE 0              0         2".
Definition b6231 : text := " 002179 TYPE OF SKY CONDITION ALGORITHM                                  CODE TABLE 2179            0            0   4 CODE TABLE 0              0         2".
Definition b6232 : text := " 002180 MAIN PRESENT WEATHER DETECTING SYSTEM                            CODE TABLE 2180            0            0   4 CODE TABLE 0              0         2".
Definition b6233 : text := " 002181 SUPPLEMENTARY PRESENT WEATHER SENSOR                             FLAGTABLE                  0            0  21 FLAG TABLE                0         7".
Definition b6234 : text := " 002182 VISIBILITY MEASUREMENT SYSTEM                                    CODE TABLE 2182            0            0   4 CODE TABLE 0              0         2".
Definition b6235 : text := " 002183 CLOUD DETECTION SYSTEM                                           CODE TABLE 2183            0            0   4 CODE TABLE 0              0         2".
Definition b6236 : text := " 002184 TYPE OF LIGHTNING DETECTION SENSOR                               CODE TABLE 2184            0            0   4 CODE TABLE 0              0         2".
Definition b6237 : text := " 002185 METHOD OF EVAPORATION MEASUREMENT                                CODE TABLE 2185            0            0   4 CODE TABLE 0              0         2".
Definition b6238 : text := " 002186 CAPABILITY TO DETECT PRECIPITATION PHENOMENA                     FLAGTABLE                  0            0  30 FLAG TABLE                0        10".
Definition b6239 : text := " 002187 CAPABILITY TO DETECT OTHER WEATHER PHENOMENA                     FLAGTABLE                  0            0  18 FLAG TABLE                0         6".
Definition b6240 : text := " 002188 CAPABILITY TO DETECT OBSCURATION                                 FLAGTABLE                  0            0  21 FLAG TABLE                0         7".
Definition b6241 : text := " 002189 CAPABILITY TO DISCRIMINATE LIGHTNING STRIKES                     FLAGTABLE                  0            0  12 FLAG TABLE                0         4".
Definition b6242 : text := " 004001 YEAR                                                             A                          0            0  12 A                         0         4".
Definition b6243 : text := " 004002 MONTH                                                            MON                        0            0   4 MON                       0         2".
Definition b6244 : text := " 004003 DAY                                                              D                          0            0   6 D                         0         2".
Definition b6245 : text := " 004004 HOUR                                                             H                          0            0   5 H                         0         2".
Definition b6246 : text := " 004005 MINUTE                                                           MIN                        0            0   6 MIN                       0         2".
Definition b6247 : text := " 004008 SECONDS WITHIN A MINUTE (HIGH ACCURACY)                          S                          7            0  30 ".
Definition b6248 : text := " 004011 TIME INCREMENT                                                   A                          0        -1024  11 A                         0         4".
Definition b6249 : text := " 004012 TIME INCREMENT                                                   MON                        0        -1024  11 MON                       0         4".
Definition b6250 : text := " 004013 TIME INCREMENT                                                   D                          0        -1024  11 D                         0         4".
Definition b6251 : text := " 004014 TIME INCREMENT                                                   H                          0        -1024  11 H                         0         4".
Definition b6252 : text := " 004015 TIME INCREMENT                                                   MIN                        0        -2048  12 MIN                       0         4".
Definition b6253 : text := " 004017 REFERENCE TIME PERIOD FOR ACCUMULATED OR EXTREME DATA            MIN                        0        -1440  12 MIN                       0         4".
Definition b6254 : text := " 004021 TIME PERIOD OR DISPLACEMENT                                      A                          0        -1024  11 A                         0         4".
Definition b6255 : text := " 004022 TIME PERIOD OR DISPLACEMENT                                      MON                        0        -1024  11 MON                       0         4".
Definition b6256 : text := " 004023 TIME PERIOD OR DISPLACEMENT                                      D                          0        -1024  11 D                         0         4".
Definition b6257 : text := " 004024 TIME PERIOD OR DISPLACEMENT                                      H                          0        -2048  12 H                         0         4".
Definition b6258 : text := " 004025 TIME PERIOD OR DISPLACEMENT                                      MIN                        0        -2048  12 MIN                       0         4".
Definition b6259 : text := " 004031 DURATION OF TIME RELATING TO FOLLOWING VALUE                     H                          0            0   8 H                         0         3".
Definition b6260 : text := " 004032 DURATION OF TIME RELATING TO FOLLOWING VALUE                     MIN                        0            0   6 MIN                       0         2".
Definition b6261 : text := " 004041 TIME DIFFERENCE, UTC - LMT                                       MIN                        0        -1440  12 MIN                       0         4".
Definition b6262 : text := " 004043 DAY OF THE YEAR                                                  D                          0            0   9 D                         0         3".
Definition b6263 : text := " 004051 PRINCIPAL TIME OF DAILY READING OF MAXIMUM TEMPERATURE           H                          0            0   5 H                         0         2".
Definition b6264 : text := " 004052 PRINCIPAL TIME OF DAILY READING OF MINIMUM TEMPERATURE           H                          0            0   5 H                         0         2".
Definition b6265 : text := " 004059 TIMES OF OBSERVATION USED TO COMPUTE THE REPORTED MEAN VALUES    FLAGTABLE                  0            0   6 FLAG TABLE                0         2".
Definition b6266 : text := " 004065 SHORT TIME INCREMENT                                             MIN                        0         -128   8 MIN                       0         2".
Definition b6267 : text := " 004073 SHORT TIME PERIOD OR DISPLACEMENT                                D                          0         -128   8 D                         0         2".
Definition b6268 : text := " 004074 SHORT TIME PERIOD OR DISPLACEMENT                                H                          0         -128   8 H                         0         2".
Definition b6269 : text := " 004075 SHORT TIME PERIOD OR DISPLACEMENT                                MIN                        0         -128   8 MIN                       0         2".
Definition b6270 : text := " 004080 AVERAGING PERIOD FOR FOLLOWING VALUE                             CODE TABLE 4080            0            0   4 CODE TABLE 0              0         2".
Definition b6271 : text := " 005001 LATITUDE (HIGH ACCURACY)                                         DEG                        5     -9000000  25 DEG                       5         7".
Definition b6272 : text := " 005002 LATITUDE (COARSE ACCURACY)                                       DEG                        2        -9000  15 DEG                       2         4".
Definition b6273 : text := " 005011 LATITUDE INCREMENT (HIGH ACCURACY)                               DEG                        5     -9000000  25 DEG                       5         7".
Definition b6274 : text := " 005012 LATITUDE INCREMENT (COARSE ACCURACY)                             DEG                        2        -9000  15 DEG                       2         4".
Definition b6275 : text := " 005015 LATITUDE DISPLACEMENT (HIGH ACCURACY)                            DEG                        5     -9000000  25 DEG                       5         7".
Definition b6276 : text := " 005016 LATITUDE DISPLACEMENT (COARSE ACCURACY)                          DEG                        2        -9000  15 DEG                       2         4".
Definition b6277 : text := " 005021 BEARING OR AZIMUTH (DEGREE TRUE)                                 DEG                        2            0  16 DEG                       2         5".
Definition b6278 : text := " 005022 SOLAR AZIMUTH (DEGREE TRUE)                                      DEG                        2            0  16 DEG                       2         5".
Definition b6279 : text := " 005023 SUN TO SATELLITE AZIMUTH DIFFERENCE                              DEG                        1        -1800  12 DEG                       1         4".
Definition b6280 : text := " 005030 DIRECTION (SPECTRAL)                                             DEG                        0            0  12 DEG                       0         4".
Definition b6281 : text := " 005060 Y ANGULAR POSITION FROM CENTRE OF GRAVITY                        DEG                        6     -8000000  24 DEG                       6         8".
Definition b6282 : text := " 005061 Z ANGULAR POSITION FROM CENTRE OF GRAVITY                        DEG                        6     -8000000  24 DEG                       6         8".
Definition b6283 : text := " 006001 LONGITUDE (HIGH ACCURACY)                                        DEG                        5    -18000000  26 DEG                       5         8".
Definition b6284 : text := " 006002 LONGITUDE (COARSE ACCURACY)                                      DEG                        2       -18000  16 DEG                       2         5".
Definition b6285 : text := " 006011 LONGITUDE INCREMENT (HIGH ACCURACY)                              DEG                        5    -18000000  26 DEG                       5         8".
Definition b6286 : text := " 006012 LONGITUDE INCREMENT (COARSE ACCURACY)                            DEG                        2       -18000  16 DEG                       2         5".
Definition b6287 : text := " 006015 LONGITUDE DISPLACEMENT (HIGH ACCURACY)                           DEG                        5    -18000000  26 DEG                       5         8".
Definition b6288 : text := " 006016 LONGITUDE DISPLACEMENT (COARSE ACCURACY)                         DEG                        2       -18000  16 DEG                       2         5".
Definition b6289 : text := " 006029 WAVE NUMBER                                                      M-1                        1            0  22 M-1                       1         7".
Definition b6290 : text := " 007001 HEIGHT OF STATION                                                M                          0         -400  15 M                         0         5".
Definition b6291 : text := " 007003 GEOPOTENTIAL                                                     M2S-2                     -1         -400  17 M2 S-2                   -1         6".
Definition b6292 : text := " 007008 GEOPOTENTIAL                                                     M2S-2                      0       -10000  20 M2 S-2                    0         7".
Definition b6293 : text := " 007021 ELEVATION                                                        DEG                        2        -9000  15 DEG                       2         5".
Definition b6294 : text := " 007022 SOLAR ELEVATION                                                  DEG                        2        -9000  15 DEG                       2         5".
Definition b6295 : text := " 007024 SATELLITE ZENITH ANGLE                                           DEG                        2        -9000  15 DEG                       2         5".
Definition b6296 : text := " 007025 SOLAR ZENITH ANGLE                                               DEG                        2        -9000  15 DEG                       2         5".
Definition b6297 : text := " 007026 SATELLITE ZENITH ANGLE                                           DEG                        4      -900000  21 DEG                       4         7".
Definition b6298 : text := " 007030 HEIGHT OF STATION GROUND ABOVE MEAN SEA LEVEL                    M                          1        -4000  17 M                         1         5".
Definition b6299 : text := " 007031 HEIGHT OF BAROMETER ABOVE MEAN SEA LEVEL                         M                          1        -4000  17 M                         1         5".
Definition b6300 : text := " 007033 HEIGHT OF SENSOR ABOVE WATER SURFACE                             M                          1            0  12 M                         1         4".
Definition b6301 : text := " 007040 IMPACT PARAMETER                                                 M                          1     62000000  22 M                         1         8".
Definition b6302 : text := " 007063 DEPTH BELOW SEA/WATER SURFACE (CM)                               M                          2            0  20 M                         2         7".
Definition b6303 : text := " 007064 REPRESENTATIVE HEIGHT OF SENSOR ABOVE STATION                    M                          0            0   4 M                         0         2".
Definition b6304 : text := " 007065 WATER PRESSURE                                                   PA                        -3            0  17 PA                       -3         6".
Definition b6305 : text := " 008001 VERTICAL SOUNDING SIGNIFICANCE                                   FLAGTABLE                  0            0   7 FLAG TABLE                0         3".
Definition b6306 : text := " 008002 VERTICAL SIGNIFICANCE (SURFACE OBSERVATIONS)                     CODE TABLE 8002            0            0   6 CODE TABLE 0              0         2".
Definition b6307 : text := " 008003 VERTICAL SIGNIFICANCE (SATELLITE OBSERVATIONS)                   CODE TABLE 8003            0            0   6 CODE TABLE 0              0         2".
Definition b6308 : text := " 008004 PHASE OF AIRCRAFT FLIGHT                                         CODE TABLE 8004            0            0   3 CODE TABLE 0              0         1".
Definition b6309 : text := " 008005 METEOROLOGICAL ATTRIBUTE SIGNIFICANCE                            CODE TABLE 8005            0            0   4 CODE TABLE 0              0         2".
Definition b6310 : text := " 008006 OZONE VERTICAL SOUNDING SIGNIFICANCE                             FLAGTABLE                  0            0   9 FLAG TABLE                0         3".
Definition b6311 : text := " 008007 DIMENSIONAL SIGNIFICANCE                                         CODE TABLE 8007            0            0   4 CODE TABLE 0              0         2".
Definition b6312 : text := " 008008 RADIATION VERTICAL SOUNDING SIGNIFICANCE                         FLAGTABLE                  0            0   9 FLAG TABLE                0         3".
Definition b6313 : text := " 008009 DETAILED PHASE OF FLIGHT                                         CODE TABLE 8009            0            0   4 CODE TABLE 0              0         2".
Definition b6314 : text := " 008010 SURFACE QUALIFIER (FOR TEMPERATURE DATA)                         CODE TABLE 8010            0            0   5 CODE TABLE 0              0         2".
Definition b6315 : text := " 008011 METEOROLOGICAL FEATURE                                           CODE TABLE 8011            0            0   6 CODE TABLE 0              0         2".
Definition b6316 : text := " 008012 LAND/SEA QUALIFIER                                               CODE TABLE 8012            0            0   2 CODE TABLE 0              0         1".
Definition b6317 : text := " 008013 DAY/NIGHT QUALIFIER                                              CODE TABLE 8013            0            0   2 CODE TABLE 0              0         1".
Definition b6318 : text := " 008014 QUALIFIER FOR RUNWAY VISUAL RANGE                                CODE TABLE 8014            0            0   4 CODE TABLE 0              0         2".
Definition b6319 : text := " 008016 CHANGE QUALIFIER OF A TREND-TYPE FORECAST OR AN AERODROME FORECA CODE TABLE 8016            0            0   3 CODE TABLE 0              0         1".
Definition b6320 : text := " 008017 QUALIFIER OF THE TIME WHEN THE FORECAST CHANGE IS EXPECTED       CODE TABLE 8017            0            0   2 CODE TABLE 0              0         1".
Definition b6321 : text := " 008018 SEAWINDS LAND/ICE SURFACE TYPE                                   FLAGTABLE                  0            0  17 FLAG TABLE                0         6".
Definition b6322 : text := " 008019 QUALIFIER FOR FOLLOWING CENTRE IDENTIFIER                        CODE TABLE 8019            0            0   4 CODE TABLE 0              0         2".
Definition b6323 : text := " 008021 TIME SIGNIFICANCE                                                CODE TABLE 8021            0            0   5 CODE TABLE 0              0         2".
Definition b6324 : text := " 008023 FIRST-ORDER STATISTICS                                           CODE TABLE 8023            0            0   6 CODE TABLE 0              0         2".
Definition b6325 : text := " 008024 DIFFERENCE STATISTICS                                            CODE TABLE 8024            0            0   6 CODE TABLE 0              0         2".
Definition b6326 : text := " 008025 TIME DIFFERENCE QUALIFIER                                        CODE TABLE 8025            0            0   4 CODE TABLE 0              0         2".
Definition b6327 : text := " 008026 MATRIX SIGNIFICANCE                                              CODE TABLE 8026            0            0   6 CODE TABLE 0              0         2".
Definition b6328 : text := " 008029 SURFACE TYPE                                                     CODE TABLE 8029            0            0   8 CODE TABLE 0              0         3".
Definition b6329 : text := " 008031 DATA CATEGORY - CREX TABLE A                                     NUMERIC                    0            0   8 NUMERIC                   0         3".
Definition b6330 : text := " 008033 METHOD OF DERIVATION OF PERCENTAGE CONFIDENCE                    CODE TABLE 8033            0            0   7 CODE TABLE 0              0         3".
Definition b6331 : text := " 008035 TYPE OF MONITORING EXERCISE                                      CODE TABLE 8035            0            0   3 CODE TABLE 0              0         1".
Definition b6332 : text := " 008036 TYPE OF CENTRE OR STATION PERFORMING MONITORING                  CODE TABLE 8036            0            0   3 CODE TABLE 0              0         1".
Definition b6333 : text := " 008039 TIME SIGNIFICANCE (AVIATION FORECAST)                            CODE TABLE 8039            0            0   6 CODE TABLE 0              0         2".
Definition b6334 : text := " 008040 FLIGHT LEVEL SIGNIFICANCE                                        CODE TABLE 8040            0            0   6 CODE TABLE 0              0         2".
Definition b6335 : text := " 008041 DATA SIGNIFICANCE                                                CODE TABLE 8041            0            0   5 CODE TABLE 0              0         2".
Definition b6336 : text := " 008042 EXTENDED VERTICAL SOUNDING SIGNIFICANCE                          FLAGTABLE                  0            0  18 FLAG TABLE                0         6".
Definition b6337 : text := " 008043 ATMOSPHERIC CHEMICAL OR PHYSICAL CONSTITUENT TYPE                CODE TABLE 8043            0            0   8 CODE TABLE 0              0         3".
Definition b6338 : text := " 008045 PARTICULATE MATTER CHARACTERIZATION                              CODE TABLE 8045            0            0   8 CODE TABLE 0              0         3".
Definition b6339 : text := " 008050 QUALIFIER FOR NUMBER OF MISSING VALUES IN CALCULATION OF STATIST CODE TABLE 8050            0            0   4 CODE TABLE 0              0         2".
Definition b6340 : text := " 008051 QUALIFIER FOR NUMBER OF MISSING VALUES IN CALCULATION OF STATIST CODE TABLE 8051            0            0   3 CODE TABLE 0              0         1".
Definition b6341 : text := " 008052 CONDITION FOR WHICH NUMBER OF DAYS OF OCCURRENCE FOLLOWS         CODE TABLE 8052            0            0   5 CODE TABLE 0              0         2".
Definition b6342 : text := " 008053 DAY OF OCCURRENCE QUALIFIER                                      CODE TABLE 8053            0            0   2 CODE TABLE 0              0         1".
Definition b6343 : text := " 008054 QUALIFIER FOR WIND SPEED OR WIND GUSTS                           CODE TABLE 8054            0            0   3 CODE TABLE 0              0         1".
Definition b6344 : text := " 008060 SAMPLE SCANNING MODE SIGNIFICANCE                                CODE TABLE 8060            0            0   4 CODE TABLE 0              0         2".
Definition b6345 : text := " 008065 SUN-GLINT INDICATOR                                              CODE TABLE 8065            0            0   2 CODE TABLE 0              0         1".
Definition b6346 : text := " 008066 SEMI-TRANSPARENCY INDICATOR                                      CODE TABLE 8066            0            0   2 CODE TABLE 0              0         1".
Definition b6347 : text := " 008070 TOVS/ATOVS PRODUCT QUALIFIER                                     CODE TABLE 8070            0            0   4 CODE TABLE 0              0         2".
Definition b6348 : text := " 008072 PIXEL(S) TYPE                                                    CODE TABLE 8072            0            0   3 CODE TABLE 0              0         1".
Definition b6349 : text := " 008074 ALTIMETER ECHO TYPE                                              CODE TABLE 8074            0            0   2 CODE TABLE 0              0         1".
Definition b6350 : text := " 008075 ASCENDING/DESCENDING ORBIT QUALIFIER                             CODE TABLE 8075            0            0   2 CODE TABLE 0              0         1".
Definition b6351 : text := " 008076 TYPE OF BAND                                                     CODE TABLE 8076            0            0   6 CODE TABLE 0              0         2".
Definition b6352 : text := " 008077 RADIOMETER SENSED SURFACE TYPE                                   CODE TABLE 8077            0            0   7 CODE TABLE 0              0         3".
Definition b6353 : text := " 008079 AVIATION PRODUCT STATUS                                          CODE TABLE 8079            0            0   4 CODE TABLE 0              0         2".
Definition b6354 : text := " 008080 QUALIFIER FOR GTSPP QUALITY FLAG                                 CODE TABLE 8080            0            0   6 CODE TABLE 0              0         2".
Definition b6355 : text := " 008081 TYPE OF EQUIPMENT                                                CODE TABLE 8081            0            0   6 CODE TABLE 0              0         2".
Definition b6356 : text := " 008082 MODIFICATION OF SENSOR HEIGHT TO ANOTHER VALUE                   CODE TABLE 8082            0            0   3 CODE TABLE 0              0         1".
Definition b6357 : text := " 008083 NOMINAL VALUE INDICATOR                                          FLAGTABLE                  0            0  15 FLAG TABLE                0         5".
Definition b6358 : text := " 008085 BEAM IDENTIFIER                                                  CODE TABLE 8085            0            0   3 CODE TABLE 0              0         1".
Definition b6359 : text := " 010003 GEOPOTENTIAL                                                     M2S-2                     -1         -400  17 M2 S-2                   -1         6".
Definition b6360 : text := " 010008 GEOPOTENTIAL                                                     M2S-2                      0       -10000  20 M2 S-2                    0         7".
Definition b6361 : text := " 010034 EARTH'S RADIUS                                                   M                          1            0  27 M                         2         9".
Definition b6362 : text := " 010036 GEOID UNDULATION                                                 M                          2       -15000  15 M                         2         6".
Definition b6363 : text := " 010063 CHARACTERISTIC OF PRESSURE TENDENCY                              CODE TABLE 10063           0            0   4 CODE TABLE 0              0         2".
Definition b6364 : text := " 010064 SIGMET CRUISING LEVEL                                            CODE TABLE 10064           0            0   3 CODE TABLE 0              0         1".
Definition b6365 : text := " 010080 VIEWING ZENITH ANGLE                                             DEG                        2        -9000  15 DEG                       2         5".
Definition b6366 : text := " 010083 SQUARED OFF NADIR ANGLE OF THE SATELLITE FROM PLATFORM DATA      DEG2                       2            0  16 DEG2                      2         5".
Definition b6367 : text := " 010084 SQUARED OFF NADIR ANGLE OF THE SATELLITE FROM WAVEFORM DATA      DEG2                       2            0  16 DEG2                      2         5".
Definition b6368 : text := " 010087 OCEAN DEPTH/LAND ELEVATION                                       M                          1      -131072  18 M                         1         6".
Definition b6369 : text := " 010088 TOTAL GEOCENTRIC OCEAN TIDE HEIGHT (SOLUTION 1)                  M                          3       -32768  16 M                         3         5".
Definition b6370 : text := " 010089 TOTAL GEOCENTRIC OCEAN TIDE HEIGHT (SOLUTION 2)                  M                          3       -32768  16 M                         3         5".
Definition b6371 : text := " 010096 MEAN DYNAMIC TOPOGRAPHY                                          M                          3      -131072  18 M                         3         6".
Definition b6372 : text := " 010097 MEAN SEA SURFACE HEIGHT FROM ALTIMETER ONLY                      M                          3      -131072  18 M                         3         6".
Definition b6373 : text := " 010098 LOADING TIDE HEIGHT GEOCENTRIC OCEAN TIDE SOLUTION 1             M                          4        -2000  12 M                         4         4".
Definition b6374 : text := " 010099 LOADING TIDE HEIGHT GEOCENTRIC OCEAN TIDE SOLUTION 2             M                          4        -2000  12 M                         4         4".
Definition b6375 : text := " 010100 NON-EQUILIBRIUM LONG PERIOD TIDE HEIGHT                          M                          4        -2000  12 M                         4         4".
Definition b6376 : text := " 010101 SQUARED OFF NADIR ANGLE OF THE SATELLITE FROM WAVEFORM DATA      DEG2                       2       -32768  16 DEG2                      2         5".
Definition b6377 : text := " 010102 SEA SURFACE HEIGHT ANOMALY                                       M                          3       -32768  16 M                         3         5".
Definition b6378 : text := " 011001 WIND DIRECTION (DEGREE TRUE)                                     DEG                        0            0   9 DEG                       0         3".
Definition b6379 : text := " 011010 WIND DIRECTION ASSOCIATED WITH WIND SPEED WHICH FOLLOWS (DEGREE  DEG                        0            0   9 DEG                       0         3".
Definition b6380 : text := " 011011 WIND DIRECTION AT 10 M (DEGREE TRUE)                             DEG                        0            0   9 DEG                       0         3".
Definition b6381 : text := " 011013 WIND DIRECTION AT 5 M (DEGREE TRUE)                              DEG                        0            0   9 DEG                       0         3".
Definition b6382 : text := " 011016 EXTREME COUNTERCLOCKWISE WIND DIRECTION OF A VARIABLE WIND (DEGR DEG                        0            0   9 DEG                       0         3".
Definition b6383 : text := " 011017 EXTREME CLOCKWISE WIND DIRECTION OF A VARIABLE WIND (DEGREE TRUE DEG                        0            0   9 DEG                       0         3".
Definition b6384 : text := " 011019 STEADINESS OF WIND                                               %                          0            0   7 %                         0         3".
Definition b6385 : text := " 011021 RELATIVE VORTICITY                                               /S                         9       -65536  17 /S                        9         6".
Definition b6386 : text := " 011022 DIVERGENCE                                                       /S                         9       -65536  17 /S                        9         6".
Definition b6387 : text := " 011023 VELOCITY POTENTIAL                                               M2/S                      -2       -65536  17 M2/S                     -2         6".
Definition b6388 : text := " 011031 DEGREE OF TURBULENCE                                             CODE TABLE 11031           0            0   4 CODE TABLE 0              0         2".
Definition b6389 : text := " 011035 VERTICAL GUST ACCELERATION                                       MS-2                       2        -8192  14 M S-2                     2         5".
Definition b6390 : text := " 011037 TURBULENCE INDEX                                                 CODE TABLE 11037           0            0   6 CODE TABLE 0              0         2".
Definition b6391 : text := " 011038 TIME OF OCCURRENCE OF PEAK EDDY DISSIPATION RATE                 CODE TABLE 11038           0            0   5 CODE TABLE 0              0         2".
Definition b6392 : text := " 011039 EXTENDED TIME OF OCCURRENCE OF PEAK EDDY DISSIPATION RATE        CODE TABLE 11039           0            0   6 CODE TABLE 0              0         2".
Definition b6393 : text := " 011042 MAXIMUM WIND SPEED (10-MINUTE MEAN WIND)                         M/S                        1            0  12 M/S                       1         4".
Definition b6394 : text := " 011043 MAXIMUM WIND GUST DIRECTION (DEGREE TRUE)                        DEG                        0            0   9 DEG                       0         3".
Definition b6395 : text := " 011044 MEAN WIND DIRECTION FOR SURFACE - 1 500 M (5 000 FEET) (DEGREE T DEG                        0            0   9 DEG                       0         3".
Definition b6396 : text := " 011045 MEAN WIND SPEED FOR SURFACE - 1 500 M (5 000 FEET)               M/S                        1            0  12 M/S                       1         4".
Definition b6397 : text := " 011049 STANDARD DEVIATION OF WIND DIRECTION (DEGREE TRUE)               DEG                        0            0   9 DEG                       0         3".
Definition b6398 : text := " 011053 FORMAL UNCERTAINTY IN WIND DIRECTION (DEGREE TRUE)               DEG                        2            0  15 DEG                       2         5".
Definition b6399 : text := " 011054 MEAN WIND DIRECTION FOR 1 500 - 3 000 M (DEGREE TRUE)            DEG                        0            0   9 DEG                       0         3".
Definition b6400 : text := " 011055 MEAN WIND SPEED FOR 1 500 - 3 000 M                              M/S                        1            0  12 M/S                       1         4".
Definition b6401 : text := " 011071 TURBULENT VERTICAL MOMENTUM FLUX                                 M2S-2                      3         -128  14 M2 S-2                    3         5".
Definition b6402 : text := " 011072 TURBULENT VERTICAL BUOYANCY FLUX                                 KM/S                       3         -128  11 K M S-1                   3         4".
Definition b6403 : text := " 011073 TURBULENT KINETIC ENERGY                                         M2S-2                      2        -1024  13 M2 S-2                    2         4".
Definition b6404 : text := " 011074 DISSIPATION ENERGY                                               M2S-2                      2        -1024  10 M2 S-2                    2         4".
Definition b6405 : text := " 011075 MEAN TURBULENCE INTENSITY (EDDY DISSIPATION RATE)                M2/3S-1                    2            0   8 M2/3 S-1                  2         3".
Definition b6406 : text := " 011076 PEAK TURBULENCE INTENSITY (EDDY DISSIPATION RATE)                M2/3S-1                    2            0   8 M2/3 S-1                  2         3".
Definition b6407 : text := " 011081 MODEL WIND DIRECTION AT 10 M (DEGREE TRUE)                       DEG                        2            0  16 DEG                       2         5".
Definition b6408 : text := " 011082 MODEL WIND SPEED AT 10 M                                         M/S                        2            0  14 M/S                       2         4".
Definition b6409 : text := " 011083 WIND SPEED                                                       KM/H                       0            0   9 KM/H                      0         3".
Definition b6410 : text := " 011084 WIND SPEED                                                       KT                         0            0   8 KT                        0         3".
Definition b6411 : text := " 011085 MAXIMUM WIND GUST SPEED                                          KM/H                       0            0   9 KM/H                      0         3".
Definition b6412 : text := " 011086 MAXIMUM WIND GUST SPEED                                          KT                         0            0   8 KT                        0         3".
Definition b6413 : text := " 011095 U-COMPONENT OF THE MODEL WIND VECTOR                             M/S                        1        -4096  13 M/S                       1         4".
Definition b6414 : text := " 011096 V-COMPONENT OF THE MODEL WIND VECTOR                             M/S                        1        -4096  13 M/S                       1         4".
Definition b6415 : text := " 011097 WIND SPEED FROM ALTIMETER                                        M/S                        2            0  12 M/S                       2         4".
Definition b6416 : text := " 011098 WIND SPEED FROM RADIOMETER                                       M/S                        2            0  12 M/S                       2         4".
Definition b6417 : text := " 012001 TEMPERATURE/AIR TEMPERATURE                                      K                          1            0  12 C                         1         3".
Definition b6418 : text := " 012002 AIR TEMPERATURE                                                  K                          1            0  12 C                         1         3".
Definition b6419 : text := " 012021 MAXIMUM TEMPERATURE AT 2 M                                       K                          2            0  16 C                         2         4".
Definition b6420 : text := " 012022 MINIMUM TEMPERATURE AT 2 M                                       K                          2            0  16 C                         2         4".
Definition b6421 : text := " 012024 DEW-POINT TEMPERATURE                                            C                          0          -99   8 C                         0         2".
Definition b6422 : text := " 012066 ANTENNA TEMPERATURE                                              K                          2            0  16 C                         2         5".
Definition b6423 : text := " 012072 RADIANCE                                                         WM-2SR-1                   6            0  31 W M-2 SR-1                6         9".
Definition b6424 : text := " 012075 SPECTRAL RADIANCE                                                WM-3SR-1                  -3            0  16 W M-3 SR-1               -3         5".
Definition b6425 : text := " 012076 RADIANCE                                                         WM-2SR-1                   3            0  16 W M-2 SR-1                3         5".
Definition b6426 : text := " 012101 TEMPERATURE/AIR TEMPERATURE                                      K                          2            0  16 C                         2         4".
Definition b6427 : text := " 012104 AIR TEMPERATURE AT 2 M                                           K                          2            0  16 C                         2         4".
Definition b6428 : text := " 012105 WEB-BULB TEMPERATURE AT 2 M                                      K                          2            0  16 C                         2         4".
Definition b6429 : text := " 012106 DEW-POINT TEMPERATURE AT 2 M                                     K                          2            0  16 C                         2         4".
Definition b6430 : text := " 012114 MAXIMUM TEMPERATURE AT 2 M, PAST 12 HOURS                        K                          2            0  16 C                         2         4".
Definition b6431 : text := " 012115 MINIMUM TEMPERATURE AT 2 M, PAST 12 HOURS                        K                          2            0  16 C                         2         4".
Definition b6432 : text := " 012116 MAXIMUM TEMPERATURE AT 2 M, PAST 24 HOURS                        K                          2            0  16 C                         2         4".
Definition b6433 : text := " 012117 MINIMUM TEMPERATURE AT 2 M, PAST 24 HOURS                        K                          2            0  16 C                         2         4".
Definition b6434 : text := " 012168 RADIOMETRIC ACCURACY (CROSS POLARISATION)                        K                          1            0   9 K                         1         3".
Definition b6435 : text := " 012186 MEAN NADIR SEA-SURFACE TEMPERATURE                               K                          2            0  16 K                         2         5".
Definition b6436 : text := " 012187 MEAN DUAL VIEW SEA-SURFACE TEMPERATURE                           K                          2            0  16 K                         2         5".
Definition b6437 : text := " 013005 VAPOUR DENSITY                                                   KGM-3                      3            0   7 KG M-3                    3         3".
Definition b6438 : text := " 013011 TOTAL PRECIPITATION/TOTAL WATER EQUIVALENT                       KGM-2                      1           -1  14 KG M-2                    1         5".
Definition b6439 : text := " 013014 RAINFALL/WATER EQUIVALENT OF SNOW (AVERAGED RATE)                KGM-2S-1                   4            0  12 KG M-2 S-1                4         4".
Definition b6440 : text := " 013016 PRECIPITABLE WATER                                               KGM-2                      0            0   7 KG M-2                    0         3".
Definition b6441 : text := " 013019 TOTAL PRECIPITATION PAST 1 HOUR                                  KGM-2                      1           -1  14 KG M-2                    1         4".
Definition b6442 : text := " 013020 TOTAL PRECIPITATION PAST 3 HOURS                                 KGM-2                      1           -1  14 KG M-2                    1         5".
Definition b6443 : text := " 013021 TOTAL PRECIPITATION PAST 6 HOURS                                 KGM-2                      1           -1  14 KG M-2                    1         5".
Definition b6444 : text := " 013022 TOTAL PRECIPITATION PAST 12 HOURS                                KGM-2                      1           -1  14 KG M-2                    1         5".
Definition b6445 : text := " 013023 TOTAL PRECIPITATION PAST 24 HOURS                                KGM-2                      1           -1  14 KG M-2                    1         5".
Definition b6446 : text := " 013031 EVAPOTRANSPIRATION                                               KGM-2                      0            0   7 KG M-2                    0         3".
Definition b6447 : text := " 013032 EVAPORATION/EVAPOTRANSPIRATION                                   KGM-2                      1            0   8 KG M-2                    1         3".
Definition b6448 : text := " 013033 EVAPORATION/EVAPOTRANSPIRATION                                   KGM-2                      1            0  10 KG M-2                    1         4".
Definition b6449 : text := " 013038 SUPERADIABATIC INDICATOR                                         CODE TABLE 13038           0            0   2 CODE TABLE 0              0         1".
Definition b6450 : text := " 013039 TERRAIN TYPE (ICE/SNOW)                                          CODE TABLE 13039           0            0   3 CODE TABLE 0              0         1".
Definition b6451 : text := " 013040 SURFACE FLAG                                                     CODE TABLE 13040           0            0   4 CODE TABLE 0              0         2".
Definition b6452 : text := " 013041 PASQUILL-GIFFORD STABILITY CATEGORY                              CODE TABLE 13041           0            0   4 CODE TABLE 0              0         2".
Definition b6453 : text := " 013051 FREQUENCY GROUP, PRECIPITATION                                   CODE TABLE 13051           0            0   4 CODE TABLE 0              0         2".
Definition b6454 : text := " 013052 HIGHEST DAILY AMOUNT OF PRECIPITATION                            KGM-2                      1           -1  14 KG M-2                    1         5".
Definition b6455 : text := " 013055 INTENSITY OF PRECIPITATION                                       KGM-2S-1                   4            0   8 MM/H                      1         4".
Definition b6456 : text := " 013056 CHARACTER AND INTENSITY OF PRECIPITATION                         CODE TABLE 13056           0            0   4 CODE TABLE 0              0         2".
Definition b6457 : text := " 013057 TIME OF BEGINNING OR END OF PRECIPITATION                        CODE TABLE 13057           0            0   4 CODE TABLE 0              0         2".
Definition b6458 : text := " 013060 TOTAL ACCUMULATED PRECIPITATION                                  KGM-2                      1           -1  17 KG M-2                    1         5".
Definition b6459 : text := " 013071 UPSTREAM WATER LEVEL                                             M                          2            0  14 M                         2         4".
Definition b6460 : text := " 013080 WATER PH                                                         PHUNIT                     1            0  10 PH UNIT                   1         3".
Definition b6461 : text := " 013083 DISSOLVED OXYGEN                                                 KGM-3                      6            0  15 KG M-3                    6         5".
Definition b6462 : text := " 013084 TURBIDITY                                                        LM                         0            0  14 LM                        0         4".
Definition b6463 : text := " 013090 RADIOMETER WATER VAPOUR CONTENT                                  KGM-2                      1            0  10 KG M-2                    1         4".
Definition b6464 : text := " 013091 RADIOMETER LIQUID CONTENT                                        KGM-2                      2            0   8 KG M-2                    2         3".
Definition b6465 : text := " 013095 TOTAL COLUMN WATER VAPOUR                                        KGM-2                      4            0  19 KG M-2                    4         6".
Definition b6466 : text := " 013096 MWR WATER VAPOUR CONTENT                                         KGM-2                      2            0  14 KG M-2                    2         5".
Definition b6467 : text := " 013097 MWR LIQUID WATER CONTENT                                         KGM-2                      2            0  14 KG M-2                    2         5".
Definition b6468 : text := " 013098 INTEGRATED WATER VAPOUR DENSITY                                  KGM-2                      8            0  30 KG M-2                    8        10".
Definition b6469 : text := " 013155 INTENSITY OF PRECIPITATION (HIGH ACCURACY)                       KGM-2S-1                   5           -1  16 MM/H                      2         5".
Definition b6470 : text := " 014001 LONG-WAVE RADIATION, INTEGRATED OVER 24 HOURS                    J/M**2                    -3       -65536  17 J M-2                    -3         5".
Definition b6471 : text := " 014002 LONG-WAVE RADIATION, INTEGRATED OVER PERIOD SPECIFIED            J/M**2                    -3       -65536  17 J M-2                    -3         5".
Definition b6472 : text := " 014003 SHORT-WAVE RADIATION, INTEGRATED OVER 24 HOURS                   J/M**2                    -3       -65536  17 J M-2                    -3         5".
Definition b6473 : text := " 014004 SHORT-WAVE RADIATION, INTEGRATED OVER PERIOD SPECIFIED           J/M**2                    -3       -65536  17 J M-2                    -3         5".
Definition b6474 : text := " 014011 NET LONG-WAVE RADIATION, INTEGRATED OVER 24 HOURS                J/M**2                    -3       -65536  17 J M-2                    -3         5".
Definition b6475 : text := " 014012 NET LONG-WAVE RADIATION, INTEGRATED OVER PERIOD SPECIFIED        J/M**2                    -3       -65536  17 J M-2                    -3         5".
Definition b6476 : text := " 014013 NET SHORT-WAVE RADIATION, INTEGRATED OVER 24 HOURS               J/M**2                    -3       -65536  17 J M-2                    -3         5".
Definition b6477 : text := " 014014 NET SHORT-WAVE RADIATION, INTEGRATED OVER PERIOD SPECIFIED       J/M**2                    -3       -65536  17 J M-2                    -3         5".
Definition b6478 : text := " 014015 NET RADIATION, INTEGRATED OVER 24 HOURS                          J/M**2                    -4       -16384  15 J M-2                    -4         5".
Definition b6479 : text := " 014016 NET RADIATION, INTEGRATED OVER PERIOD SPECIFIED                  J/M**2                    -4       -16384  15 J M-2                    -4         5".
Definition b6480 : text := " 014017 INSTANTANEOUS LONG-WAVE RADIATION                                WM-2                       0         -512  10 W M-2                     0         4".
Definition b6481 : text := " 014018 INSTANTANEOUS SHORT-WAVE RADIATION                               WM-2                       0        -2048  12 W M-2                     0         4".
Definition b6482 : text := " 014020 GLOBAL SOLAR RADIATION, INTEGRATED OVER 24 HOURS                 J/M**2                    -4            0  15 J M-2                    -4         5".
Definition b6483 : text := " 014021 GLOBAL SOLAR RADIATION, INTEGRATED OVER PERIOD SPECIFIED         J/M**2                    -4            0  15 J M-2                    -4         5".
Definition b6484 : text := " 014022 DIFFUSE SOLAR RADIATION, INTEGRATED OVER 24 HOURS                J/M**2                    -4            0  15 J M-2                    -4         5".
Definition b6485 : text := " 014023 DIFFUSE SOLAR RADIATION, INTEGRATED OVER PERIOD SPECIFIED        J/M**2                    -4            0  15 J M-2                    -4         5".
Definition b6486 : text := " 014024 DIRECT SOLAR RADIATION, INTEGRATED OVER 24 HOURS                 J/M**2                    -4            0  15 J M-2                    -4         5".
Definition b6487 : text := " 014025 DIRECT SOLAR RADIATION, INTEGRATED OVER PERIOD SPECIFIED         J/M**2                    -4            0  15 J M-2                    -4         5".
Definition b6488 : text := " 014028 GLOBAL SOLAR RADIATION (HIGH ACCURACY), INTEGRATED OVER PERIOD S J/M**2                    -2            0  20 J M-2                    -2         6".
Definition b6489 : text := " 014029 DIFFUSE SOLAR RADIATION (HIGH ACCURACY), INTEGRATED OVER PERIOD  J/M**2                    -2            0  20 J M-2                    -2         6".
Definition b6490 : text := " 014030 DIRECT SOLAR RADIATION (HIGH ACCURACY), INTEGRATED OVER PERIOD S J/M**2                    -2            0  20 J M-2                    -2         6".
Definition b6491 : text := " 014031 TOTAL SUNSHINE                                                   MIN                        0            0  11 MIN                       0         4".
Definition b6492 : text := " 014032 TOTAL SUNSHINE                                                   H                          0            0  10 H                         0         4".
Definition b6493 : text := " 014034 SUNSHINE OVER PERIOD SPECIFIED                                   MIN                        0            0  11 MIN                       0         4".
Definition b6494 : text := " 014035 SOLAR RADIATION FLUX                                             WM-2                       1            0  14 W M-2                     1         5".
Definition b6495 : text := " 014042 BIDIRECTIONAL REFLECTANCE                                        %                          0            0   7 %                         0         3".
Definition b6496 : text := " 014044 CHANNEL RADIANCE                                                 WM-2SR-1CM                 7      -100000  22 W M-2 SR-1 CM             7         7".
Definition b6497 : text := " 014045 CHANNEL RADIANCE                                                 WM-2SR-1CM                 0            0  11 W M-2 SR-1 CM             0         4".
Definition b6498 : text := " 014046 SCALED IASI RADIANCE                                             WM-2SR-1M                  0        -5000  16 W M-2 SR-1 M              0         5".
Definition b6499 : text := " 014047 SCALED MEAN AVHRR RADIANCE                                       WM-2SR-1M                  0            0  31 W M-2 SR-1 M              0        10".
Definition b6500 : text := " 014048 SCALED STANDARD DEVIATION AVHRR RADIANCE                         WM-2SR-1M                  0            0  31 W M-2 SR-1 M              0        10".
Definition b6501 : text := " 014050 EMISSIVITY                                                       %                          1            0  10 %                         1         4".
Definition b6502 : text := " 014051 DIRECT SOLAR RADIATION INTEGRATED OVER LAST HOUR                 J/M**2                    -3            0  14 J M-2                    -3         4".
Definition b6503 : text := " 014052 GLOBAL UPWARD SOLAR RADIATION, INTEGRATED OVER PERIOD SPECIFIED  J/M**2                    -2     -1048574  20 J M-2                    -2         7".
Definition b6504 : text := " 014053 NET RADIATION (HIGH ACCURACY), INTEGRATED OVER PERIOD SPECIFIED  J/M**2                    -2     -1048574  21 J M-2                    -2         7".
Definition b6505 : text := " 015004 OZONE SOUNDING CORRECTION FACTOR (CF)                            NUMERIC                    3            0  11 NUMERIC                   3         4".
Definition b6506 : text := " 015011 LOG 10 OF INTEGRATED ELECTRON DENSITY                            LOG(M-2)                   3        14000  13 LOG(1/M**2)               3         4".
Definition b6507 : text := " 015012 TOTAL ELECTRON COUNT PER SQUARE METRE                            M-2                      -16            0   6 M-2                     -16         2".
Definition b6508 : text := " 015020 INTEGRATED OZONE DENSITY                                         KGM-2                      8            0  21 KG M-2                    8         7".
Definition b6509 : text := " 015021 INTEGRATED MASS DENSITY                                          KGM-2                     11            0  31 KG M-2                   11        10".
Definition b6510 : text := " 015025 TYPE OF POLLUTANT                                                CODE TABLE 15025           0            0   4 CODE TABLE 0              0         2".
Definition b6511 : text := " 015026 CONCENTRATION OF POLLUTANT (MOL MOL-1)                           MOL/MOL                    9            0   9 MOL/MOL                   9         3".
Definition b6512 : text := " 015027 CONCENTRATION OF POLLUTANT (KG M-3)                              KGM-3                      9            0  10 KG M-3                    9         4".
Definition b6513 : text := " 015036 ATMOSPHERIC REFRACTIVITY                                         NUNITS                     3            0  19 N UNITS                   3         6".
Definition b6514 : text := " 015037 BENDING ANGLE                                                    RAD                        8      -100000  23 RAD                       8         7".
Definition b6515 : text := " 019001 TYPE OF SYNOPTIC FEATURE                                         CODE TABLE 19001           0            0   6 CODE TABLE 0              0         2".
Definition b6516 : text := " 019005 DIRECTION OF MOTION OF FEATURE (DEGREE TRUE)                     DEG                        0            0   9 DEG                       0         3".
Definition b6517 : text := " 019008 VERTICAL EXTENT OF CIRCULATION                                   CODE TABLE 19008           0            0   3 CODE TABLE 0              0         1".
Definition b6518 : text := " 019010 METHOD FOR TRACKING THE CENTRE OF SYNOPTIC FEATURE               CODE TABLE 19010           0            0   4 CODE TABLE 0              0         2".
Definition b6519 : text := " 019100 TIME INTERVAL TO CALCULATE THE MOVEMENT OF THE TROPICAL CYCLONE  CODE TABLE 19100           0            0   4 CODE TABLE 0              0         2".
Definition b6520 : text := " 019101 ACCURACY OF THE POSITION OF THE CENTRE OF THE TROPICAL CYCLONE   CODE TABLE 19101           0            0   4 CODE TABLE 0              0         2".
Definition b6521 : text := " 019102 SHAPE AND DEFINITION OF THE EYE OF THE TROPICAL CYCLONE          CODE TABLE 19102           0            0   3 CODE TABLE 0              0         1".
Definition b6522 : text := " 019103 DIAMETER OF MAJOR AXIS OF THE EYE OF THE TROPICAL CYCLONE        CODE TABLE 19103           0            0   4 CODE TABLE 0              0         2".
Definition b6523 : text := " 019104 CHANGE IN CHARACTER OF THE EYE DURING THE 30 MINUTES             CODE TABLE 19104           0            0   4 CODE TABLE 0              0         2".
Definition b6524 : text := " 019105 DISTANCE BETWEEN THE END OF SPIRAL BAND AND THE CENTRE           CODE TABLE 19105           0            0   4 CODE TABLE 0              0         2".
Definition b6525 : text := " 019107 TIME INTERVAL OVER WHICH THE MOVEMENT OF THE TROPICAL CYCLONE HA CODE TABLE 19107           0            0   4 CODE TABLE 0              0         2".
Definition b6526 : text := " 019108 ACCURACY OF GEOGRAPHICAL POSITION OF THE TROPICAL CYCLONE        CODE TABLE 19108           0            0   3 CODE TABLE 0              0         1".
Definition b6527 : text := " 019109 MEAN DIAMETER OF THE OVERCAST CLOUD OF THE TROPICAL CYCLONE      CODE TABLE 19109           0            0   4 CODE TABLE 0              0         2".
Definition b6528 : text := " 019110 APPARENT 24-HOUR CHANGE IN INTENSITY OF THE TROPICAL CYCLONE     CODE TABLE 19110           0            0   4 CODE TABLE 0              0         2".
Definition b6529 : text := " 019113 CLOUD PATTERN TYPE OF THE DT-NUMBER                              CODE TABLE 19113           0            0   4 CODE TABLE 0              0         2".
Definition b6530 : text := " 019115 TREND OF THE PAST 24-HOUR CHANGE (+: DEVELOPED, -: WEAKENED)     NUMERIC                    1          -30   6 NUMERIC                   1         2".
Definition b6531 : text := " 019117 CLOUD PICTURE TYPE OF THE PT-NUMBER                              CODE TABLE 19117           0            0   3 CODE TABLE 0              0         1".
Definition b6532 : text := " 019119 TYPE OF THE FINAL T-NUMBER                                       CODE TABLE 19119           0            0   3 CODE TABLE 0              0         1".
Definition b6533 : text := " 020003 PRESENT WEATHER                                                  CODE TABLE 20003           0            0   9 CODE TABLE 0              0         3".
Definition b6534 : text := " 020004 PAST WEATHER (1)                                                 CODE TABLE 20004           0            0   5 CODE TABLE 0              0         2".
Definition b6535 : text := " 020005 PAST WEATHER (2)                                                 CODE TABLE 20005           0            0   5 CODE TABLE 0              0         2".
Definition b6536 : text := " 020006 FLIGHT RULES                                                     CODE TABLE 20006           0            0   3 CODE TABLE 0              0         1".
Definition b6537 : text := " 020008 CLOUD DISTRIBUTION FOR AVIATION                                  CODE TABLE 20008           0            0   5 CODE TABLE 0              0         2".
Definition b6538 : text := " 020009 GENERAL WEATHER INDICATOR (TAF/METAR)                            CODE TABLE 20009           0            0   4 CODE TABLE 0              0         2".
Definition b6539 : text := " 020011 CLOUD AMOUNT                                                     CODE TABLE 20011           0            0   4 CODE TABLE 0              0         2".
Definition b6540 : text := " 020012 CLOUD TYPE                                                       CODE TABLE 20012           0            0   6 CODE TABLE 0              0         2".
Definition b6541 : text := " 020017 CLOUD TOP DESCRIPTION                                            CODE TABLE 20017           0            0   4 CODE TABLE 0              0         2".
Definition b6542 : text := " 020018 TENDENCY OF RUNWAY VISUAL RANGE                                  CODE TABLE 20018           0            0   2 CODE TABLE 0              0         1".
Definition b6543 : text := " 020021 TYPE OF PRECIPITATION                                            FLAGTABLE                  0            0  30 FLAG TABLE                0        10".
Definition b6544 : text := " 020022 CHARACTER OF PRECIPITATION                                       CODE TABLE 20022           0            0   4 CODE TABLE 0              0         2".
Definition b6545 : text := " 020023 OTHER WEATHER PHENOMENA                                          FLAGTABLE                  0            0  18 FLAG TABLE                0         6".
Definition b6546 : text := " 020024 INTENSITY OF PHENOMENA                                           CODE TABLE 20024           0            0   3 CODE TABLE 0              0         1".
Definition b6547 : text := " 020025 OBSCURATION                                                      FLAGTABLE                  0            0  21 FLAG TABLE                0         7".
Definition b6548 : text := " 020026 CHARACTER OF OBSCURATION                                         CODE TABLE 20026           0            0   4 CODE TABLE 0              0         2".
Definition b6549 : text := " 020027 PHENOMENA OCCURRENCE                                             FLAGTABLE                  0            0   9 FLAG TABLE                0         3".
Definition b6550 : text := " 020028 EXPECTED CHANGE IN INTENSITY                                     CODE TABLE 20028           0            0   3 CODE TABLE 0              0         1".
Definition b6551 : text := " 020029 RAIN FLAG                                                        CODE TABLE 20029           0            0   2 CODE TABLE 0              0         1".
Definition b6552 : text := " 020032 RATE OF ICE ACCRETION                                            CODE TABLE 20032           0            0   3 CODE TABLE 0              0         1".
Definition b6553 : text := " 020033 CAUSE OF ICE ACCRETION                                           FLAGTABLE                  0            0   4 FLAG TABLE                0         2".
Definition b6554 : text := " 020034 SEA ICE CONCENTRATION                                            CODE TABLE 20034           0            0   5 CODE TABLE 0              0         2".
Definition b6555 : text := " 020035 AMOUNT AND TYPE OF ICE                                           CODE TABLE 20035           0            0   4 CODE TABLE 0              0         2".
Definition b6556 : text := " 020036 ICE SITUATION                                                    CODE TABLE 20036           0            0   5 CODE TABLE 0              0         2".
Definition b6557 : text := " 020037 ICE DEVELOPMENT                                                  CODE TABLE 20037           0            0   5 CODE TABLE 0              0         2".
Definition b6558 : text := " 020038 BEARING OF ICE EDGE (DEGREE TRUE)                                DEG                        0            0  12 DEG                       0         3".
Definition b6559 : text := " 020040 EVOLUTION OF DRIFT SNOW                                          CODE TABLE 20040           0            0   4 CODE TABLE 0              0         2".
Definition b6560 : text := " 020041 AIRFRAME ICING                                                   CODE TABLE 20041           0            0   4 CODE TABLE 0              0         2".
Definition b6561 : text := " 020042 AIRFRAME ICING PRESENT                                           CODE TABLE 20042           0            0   2 CODE TABLE 0              0         1".
Definition b6562 : text := " 020043 PEAK LIQUID WATER CONTENT                                        KGM-3                      4            0   7 KG M-3                    4         2".
Definition b6563 : text := " 020044 AVERAGE LIQUID WATER CONTENT                                     KGM-3                      4            0   7 KG M-3                    4         2".
Definition b6564 : text := " 020045 SUPERCOOLED LARGE DROPLET (SLD) CONDITIONS                       CODE TABLE 20045           0            0   2 CODE TABLE 0              0         1".
Definition b6565 : text := " 020048 EVOLUTION OF FEATURE                                             CODE TABLE 20048           0            0   4 CODE TABLE 0              0         2".
Definition b6566 : text := " 020050 CLOUD INDEX                                                      CODE TABLE 20050           0            0   8 CODE TABLE 0              0         3".
Definition b6567 : text := " 020054 TRUE DIRECTION FROM WHICH A PHENOMENON OR CLOUDS ARE MOVING (DEG DEG                        0            0   9 DEG                       0         3".
Definition b6568 : text := " 020055 STATE OF SKY IN THE TROPICS                                      CODE TABLE 20055           0            0   4 CODE TABLE 0              0         2".
Definition b6569 : text := " 020056 CLOUD PHASE                                                      CODE TABLE 20056           0            0   3 CODE TABLE 0              0         1".
Definition b6570 : text := " 020058 VISIBILITY SEAWARDS FROM A COASTAL STATION                       M                         -1            0  13 M                        -1         4".
Definition b6571 : text := " 020062 STATE OF THE GROUND (WITH OR WITHOUT SNOW)                       CODE TABLE 20062           0            0   5 CODE TABLE 0              0         2".
Definition b6572 : text := " 020063 SPECIAL PHENOMENA                                                CODE TABLE 20063           0            0  10 CODE TABLE 0              0         4".
Definition b6573 : text := " 020065 SNOW COVER                                                       %                          0            0   7 %                         0         3".
Definition b6574 : text := " 020071 ACCURACY OF FIX AND RATE OF ATMOSPHERICS                         CODE TABLE 20071           0            0   4 CODE TABLE 0              0         2".
Definition b6575 : text := " 020085 GENERAL CONDITION OF RUNWAY                                      CODE TABLE 20085           0            0   4 CODE TABLE 0              0         1".
Definition b6576 : text := " 020086 RUNWAY DEPOSITS                                                  CODE TABLE 20086           0            0   4 CODE TABLE 0              0         1".
Definition b6577 : text := " 020087 RUNWAY CONTAMINATION                                             CODE TABLE 20087           0            0   4 CODE TABLE 0              0         1".
Definition b6578 : text := " 020088 DEPTH OF RUNWAY DEPOSITS                                         M                          3            0  12 M                         0         4".
Definition b6579 : text := " 020089 RUNWAY FRICTION COEFFICIENT                                      CODE TABLE 20089           0            0   7 CODE TABLE 0              0         2".
Definition b6580 : text := " 020090 SPECIAL CLOUDS                                                   CODE TABLE 20090           0            0   4 CODE TABLE 0              0         2".
Definition b6581 : text := " 020091 VERTICAL VISIBILITY                                              FT                        -2            0  10 FT                       -2         3".
Definition b6582 : text := " 020092 HEIGHT OF BASE OF CLOUD                                          FT                        -2            0  10 FT                       -2         3".
Definition b6583 : text := " 020096 ICE AGE (A PARAMETER)                                            dB                         2        -4096  13 dB                        2         4".
Definition b6584 : text := " 020101 LOCUST (ACRIDIAN) NAME                                           CODE TABLE 20101           0            0   4 CODE TABLE 0              0         2".
Definition b6585 : text := " 020102 LOCUST (MATURITY) COLOUR                                         CODE TABLE 20102           0            0   4 CODE TABLE 0              0         2".
Definition b6586 : text := " 020103 STAGE OF DEVELOPMENT OF LOCUSTS                                  CODE TABLE 20103           0            0   4 CODE TABLE 0              0         2".
Definition b6587 : text := " 020104 ORGANIZATION STATE OF SWARM OR BAND OF LOCUSTS                   CODE TABLE 20104           0            0   4 CODE TABLE 0              0         2".
Definition b6588 : text := " 020105 SIZE OF SWARM OR BAND OF LOCUSTS AND DURATION OF PASSAGE OF SWAR CODE TABLE 20105           0            0   4 CODE TABLE 0              0         2".
Definition b6589 : text := " 020106 LOCUST POPULATION DENSITY                                        CODE TABLE 20106           0            0   4 CODE TABLE 0              0         2".
Definition b6590 : text := " 020107 DIRECTION OF MOVEMENTS OF LOCUST SWARM                           CODE TABLE 20107           0            0   4 CODE TABLE 0              0         2".
Definition b6591 : text := " 020108 EXTENT OF VEGETATION                                             CODE TABLE 20108           0            0   4 CODE TABLE 0              0         2".
Definition b6592 : text := " 020114 ANGLE OF X-AXIS IN ERROR ELLIPSE                                 DEG                        2       -18000  16 DEG                       2         5".
Definition b6593 : text := " 020115 ANGLE OF Z-AXIS IN ERROR ELLIPSE                                 DEG                        2       -18000  16 DEG                       2         5".
Definition b6594 : text := " 020123 MINIMUM THRESHOLD FOR DETECTION                                  V/M                        3            0  16 V/M                       3         5".
Definition b6595 : text := " 021005 LINEAR DEPOLARIZATION RATIO                                      dB                         0          -65   6 dB                        0         2".
Definition b6596 : text := " 021006 CIRCULAR DEPOLARIZATION RATIO                                    dB                         0          -65   6 dB                        0         2".
Definition b6597 : text := " 021031 VERTICALLY-INTEGRATED LIQUID-WATER CONTENT                       KGM-2                      0            0   7 KG M-2                    0         3".
Definition b6598 : text := " 021066 WAVE SCATTEROMETER PRODUCT CONFIDENCE DATA                       FLAGTABLE                  0            0  12 FLAG TABLE                0         4".
Definition b6599 : text := " 021067 WIND PRODUCT CONFIDENCE DATA                                     FLAGTABLE                  0            0  13 FLAG TABLE                0         5".
Definition b6600 : text := " 021068 RADAR ALTIMETER PRODUCT CONFIDENCE DATA                          FLAGTABLE                  0            0   8 FLAG TABLE                0         3".
Definition b6601 : text := " 021069 SST PRODUCT CONFIDENCE DATA                                      FLAGTABLE                  0            0  10 FLAG TABLE                0         4".
Definition b6602 : text := " 021070 SST PRODUCT CONFIDENCE DATA (SADIST-2)                           FLAGTABLE                  0            0  23 FLAG TABLE                0         6".
Definition b6603 : text := " 021072 SATELLITE ALTIMETER CALIBRATION STATUS                           FLAGTABLE                  0            0   4 FLAG TABLE                0         2".
Definition b6604 : text := " 021073 SATELLITE ALTIMETER INSTRUMENT MODE                              FLAGTABLE                  0            0   9 FLAG TABLE                0         3".
Definition b6605 : text := " 021076 REPRESENTATION OF INTENSITIES                                    CODE TABLE 21076           0            0   3 CODE TABLE 0              0         1".
Definition b6606 : text := " 021085 ATSR SEA SURFACE TEMPERATURE ACROSS-TRACK BAND NUMBER            NUMERIC                    0            0   4 NUMERIC                   0         2".
Definition b6607 : text := " 021093 KU BAND PEAKINESS                                                NUMERIC                    3            0  16 NUMERIC                   3         5".
Definition b6608 : text := " 021094 S BAND PEAKINESS                                                 NUMERIC                    3            0  16 NUMERIC                   3         5".
Definition b6609 : text := " 021109 SEAWINDS WIND VECTOR CELL QUALITY                                FLAGTABLE                  0            0  17 FLAG TABLE                0         6".
Definition b6610 : text := " 021114 KP VARIANCE COEFFICIENT (GAMMA)                                  dB                         3      -140000  18 dB                        3         6".
Definition b6611 : text := " 021115 SEAWINDS SIGMA-0 QUALITY                                         FLAGTABLE                  0            0  17 FLAG TABLE                0         6".
Definition b6612 : text := " 021116 SEAWINDS SIGMA-0 MODE                                            FLAGTABLE                  0            0  17 FLAG TABLE                0         6".
Definition b6613 : text := " 021119 WIND SCATTEROMETER GEOPHYSICAL MODEL FUNCTION                    CODE TABLE 21119           0            0   6 CODE TABLE 0              0         2".
Definition b6614 : text := " 021121 SEAWINDS NOF RAIN INDEX                                          NUMERIC                    0            0   8 NUMERIC                   0         3".
Definition b6615 : text := " 021122 ATTENUATION CORRECTION ON SIGMA-0 (FROM TB)                      dB                         2       -10000  14 dB                        2         5".
Definition b6616 : text := " 021123 SEAWINDS NORMALIZED RADAR CROSS-SECTION                          dB                         2       -30000  15 dB                        2         5".
Definition b6617 : text := " 021132 DIRECTION OF SPECTRUM MAX ON HIGHER RESOLUTION GRID              DEG                        3            0  19 DEG                       3         6".
Definition b6618 : text := " 021133 WAVELENGTH OF SPECTRUM MAX ON HIGHER RESOLUTION GRID             M                          3            0  29 M                         3         9".
Definition b6619 : text := " 021144 ALTIMETER RAIN FLAG                                              FLAGTABLE                  0            0   2 FLAG TABLE                0         1".
Definition b6620 : text := " 021145 KU BAND AUTOMATIC GAIN CONTROL                                   dB                         2            0  13 dB                        2         4".
Definition b6621 : text := " 021146 RMS KU BAND AUTOMATIC GAIN CONTROL                               dB                         2            0   8 dB                        2         3".
Definition b6622 : text := " 021147 NUMBER OF VALID POINTS FOR KU BAND AUTOMATIC GAIN CONTROL        NUMERIC                    0            0   5 NUMERIC                   0         2".
Definition b6623 : text := " 021150 BEAM CO-LOCATION                                                 CODE TABLE 21150           0            0   2 CODE TABLE 0              0         1".
Definition b6624 : text := " 021151 ESTIMATED ERROR IN SIGMA-0 AT 40 DEGREES INCIDENCE ANGLE         dB                         2            0   9 dB                        2         3".
Definition b6625 : text := " 021152 SLOPE AT 40 DEGREES INCIDENCE ANGLE                              dB/DEG                     2          -80   7 dB/DEG                    2         2".
Definition b6626 : text := " 021153 ESTIMATED ERROR IN SLOPE AT 40 DEGREES INCIDENCE ANGLE           dB/DEG                     2          -40   6 dB/DEG                    2         2".
Definition b6627 : text := " 021155 WIND VECTOR CELL QUALITY                                         FLAGTABLE                  0            0  24 FLAG TABLE                0         8".
Definition b6628 : text := " 021158 ASCAT KP QUALITY ESTIMATE                                        CODE TABLE 21158           0            0   2 CODE TABLE 0              0         1".
Definition b6629 : text := " 021159 ASCAT SIGMA-0 USABILITY                                          CODE TABLE 21159           0            0   2 CODE TABLE 0              0         1".
Definition b6630 : text := " 021169 ICE PRESENCE INDICATOR                                           CODE TABLE 21169           0            0   2 CODE TABLE 0              0         1".
Definition b6631 : text := " 021170 C BAND CORRECTED OCEAN BACKSCATTER COEFFICIENT                   dB                         2       -32768  16 dB                        2         5".
Definition b6632 : text := " 021171 RMS C BAND CORRECTED OCEAN BACKSCATTER COEFFICIENT               dB                         2       -32768  16 dB                        2         5".
Definition b6633 : text := " 021172 C BAND NET INSTRUMENTAL CORRECTION FOR AGC                       dB                         2        -2048  12 dB                        2         4".
Definition b6634 : text := " 021173 C BAND AUTOMATIC GAIN CONTROL                                    dB                         2            0  13 dB                        2         4".
Definition b6635 : text := " 021174 RMS C BAND AUTOMATIC GAIN CONTROL                                dB                         2            0   9 dB                        2         3".
Definition b6636 : text := " 021175 NUMBER OF VALID POINTS FOR C BAND AUTOMATIC GAIN CONTROL         NUMERIC                    0            0  10 NUMERIC                   0         4".
Definition b6637 : text := " 022001 DIRECTION OF WAVES (DEGREE TRUE)                                 DEG                        0            0   9 DEG                       0         3".
Definition b6638 : text := " 022002 DIRECTION OF WIND WAVES (DEGREE TRUE)                            DEG                        0            0   9 DEG                       0         3".
Definition b6639 : text := " 022003 DIRECTION OF SWELL WAVES (DEGREE TRUE)                           DEG                        0            0   9 DEG                       0         3".
Definition b6640 : text := " 022004 DIRECTION OF CURRENT (DEGREE TRUE)                               DEG                        0            0   9 DEG                       0         3".
Definition b6641 : text := " 022005 DIRECTION OF SEA SURFACE CURRENT (DEGREE TRUE)                   DEG                        0            0   9 DEG                       0         3".
Definition b6642 : text := " 022039 METEOROLOGICAL RESIDUAL TIDAL ELEVATION (SURGE OR OFFSET)        M                          3        -5000  13 M                         3         4".
Definition b6643 : text := " 022056 DIRECTION OF PROFILE                                             CODE TABLE 22056           0            0   2 CODE TABLE 0              0         1".
Definition b6644 : text := " 022059 SEA SURFACE SALINITY                                             0/00                       2            0  14 0/00                      2         5".
Definition b6645 : text := " 022060 LAGRANGIAN DRIFTER DROGUE STATUS                                 CODE TABLE 22060           0            0   3 CODE TABLE 0              0         1".
Definition b6646 : text := " 022061 STATE OF THE SEA                                                 CODE TABLE 22061           0            0   4 CODE TABLE 0              0         2".
Definition b6647 : text := " 022062 SALINITY                                                         0/00                       2            0  14 0/00                      2         5".
Definition b6648 : text := " 022064 SALINITY                                                         0/00                       3            0  17 0/00                      3         6".
Definition b6649 : text := " 022067 INSTRUMENT TYPE FOR WATER TEMPERATURE PROFILE MEASUREMENT        CODE TABLE 22067           0            0  10 CODE TABLE 0              0         4".
Definition b6650 : text := " 022068 WATER TEMPERATURE PROFILE RECORDER TYPES                         CODE TABLE 22068           0            0   7 CODE TABLE 0              0         3".
Definition b6651 : text := " 022069 SPECTRAL WAVE DENSITY                                            M**2/HZ                    3            0  22 M2 HZ-1                   3         7".
Definition b6652 : text := " 022076 DIRECTION FROM WHICH DOMINANT WAVES ARE COMING (DEGREE TRUE)     DEG                        0            0   9 DEG                       0         3".
Definition b6653 : text := " 022077 DIRECTIONAL SPREAD OF DOMINANT WAVE                              DEG                        0            0   9 DEG                       0         3".
Definition b6654 : text := " 022081 WAVEBAND CENTRAL WAVE NUMBER                                     M-1                        5            0  13 M-1                       5         4".
Definition b6655 : text := " 022082 MAXIMUM NON-DIRECTIONAL SPECTRAL WAVE DENSITY                    M2S                        2            0  20 M2 S                      2         7".
Definition b6656 : text := " 022083 MAXIMUM NON-DIRECTIONAL SPECTRAL WAVE NUMBER                     M3                         2            0  20 M3                        2         7".
Definition b6657 : text := " 022084 BAND CONTAINING MAXIMUM NON-DIRECTIONAL SPECTRAL WAVE DENSITY    NUMERIC                    0            0   7 NUMERIC                   0         3".
Definition b6658 : text := " 022086 MEAN DIRECTION FROM WHICH WAVES ARE COMING (DEGREE TRUE)         DEG                        0            0   9 DEG                       0         3".
Definition b6659 : text := " 022087 PRINCIPAL DIRECTION FROM WHICH WAVES ARE COMING (DEGREE TRUE)    DEG                        0            0   9 DEG                       0         3".
Definition b6660 : text := " 022090 NON-DIRECTIONAL SPECTRAL ESTIMATE BY WAVE FREQUENCY              M2S                        2            0  20 M2 S                      2         7".
Definition b6661 : text := " 022091 NON-DIRECTIONAL SPECTRAL ESTIMATE BY WAVE NUMBER                 M3                         2            0  20 M3                        2         7".
Definition b6662 : text := " 022092 DIRECTIONAL SPECTRAL ESTIMATE BY WAVE FREQUENCY                  M2RAD-1S                   2            0  20 M2 RAD-1 S                2         7".
Definition b6663 : text := " 022093 DIRECTIONAL SPECTRAL ESTIMATE BY WAVE NUMBER                     M4                         2            0  20 M4                        2         7".
Definition b6664 : text := " 022095 DIRECTIONAL SPREAD OF INDIVIDUAL WAVES                           DEG                        0            0   8 DEG                       0         3".
Definition b6665 : text := " 022096 SPECTRAL BAND WIDTH                                              /S                         3            0   4 /S                        3         2".
Definition b6666 : text := " 022099 MEAN DIRECTION AT LOW WAVE NUMBERS (WAVELENGTH > 731 M) (DEGREE  DEG                        0            0   9 DEG                       0         3".
Definition b6667 : text := " 022100 DIRECTION SPREAD AT LOW WAVE NUMBERS (WAVELENGTH > 731 M)        DEG                        0            0   9 DEG                       0         3".
Definition b6668 : text := " 022120 TIDE STATION AUTOMATED WATER LEVEL CHECK                         CODE TABLE 22120           0            0   5 CODE TABLE 0              0         2".
Definition b6669 : text := " 022121 TIDE STATION MANUAL WATER LEVEL CHECK                            CODE TABLE 22121           0            0   5 CODE TABLE 0              0         2".
Definition b6670 : text := " 022122 TIDE STATION AUTOMATED METEOROLOGICAL DATA CHECK                 CODE TABLE 22122           0            0   5 CODE TABLE 0              0         2".
Definition b6671 : text := " 022123 TIDE STATION MANUAL METEOROLOGICAL DATA CHECK                    CODE TABLE 22123           0            0   5 CODE TABLE 0              0         2".
Definition b6672 : text := " 022157 STD OF 18 HZ KU BAND OCEAN RANGE                                 M                          3            0  16 M                         3         5".
Definition b6673 : text := " 022159 STD OF 18 HZ S BAND SIGNIFICANT WAVE HEIGHT                      M                          3            0  16 M                         3         5".
Definition b6674 : text := " 022161 WAVE SPECTRA                                                     M4                         4            0  27 M4                        4         9".
Definition b6675 : text := " 022162 RMS OF 20 HZ KU BAND OCEAN RANGE                                 M                          3            0  16 M                         3         5".
Definition b6676 : text := " 022163 NUMBER OF 20 HZ VALID POINTS FOR KU BAND                         NUMERIC                    0            0  10 NUMERIC                   0         4".
Definition b6677 : text := " 022164 RMS 20 HZ KU BAND SIGNIFICANT WAVE HEIGHT                        M                          3            0  16 M                         3         5".
Definition b6678 : text := " 022165 NUMBER OF 20 HZ VALID POINTS FOR KU BAND SIGNIFICANT WAVE HEIGHT NUMERIC                    0            0  10 NUMERIC                   0         4".
Definition b6679 : text := " 022166 KU BAND NET INSTRUMENTAL CORRECTION FOR SIGNIFICANT WAVE HEIGHT  M                          3        -1000  11 M                         3         4".
Definition b6680 : text := " 022167 NUMBER OF VALID POINTS FOR KU BAND BACKSCATTER                   NUMERIC                    0            0  10 NUMERIC                   0         4".
Definition b6681 : text := " 022168 C BAND OCEAN RANGE                                               M                          3            0  31 M                         3        10".
Definition b6682 : text := " 022169 RMS OF C BAND OCEAN RANGE                                        M                          3            0  16 M                         3         5".
Definition b6683 : text := " 022170 NUMBER OF 20 HZ VALID POINTS FOR C BAND                          NUMERIC                    0            0  10 NUMERIC                   0         4".
Definition b6684 : text := " 022171 C BAND SIGNIFICANT WAVE HEIGHT                                   M                          3            0  16 M                         3         5".
Definition b6685 : text := " 022172 RMS 20 HZ C BAND SIGNIFICANT WAVE HEIGHT                         M                          3            0  16 M                         3         5".
Definition b6686 : text := " 022173 NUMBER OF 20 HZ VALID POINTS FOR C BAND SIGNIFICANT WAVE HEIGHT  NUMERIC                    0            0  10 NUMERIC                   0         4".
Definition b6687 : text := " 022174 C BAND NET INSTRUMENTAL CORRECTION FOR SIGNIFICANT WAVE HEIGHT   M                          3        -1000  11 M                         3         4".
Definition b6688 : text := " 022175 NUMBER OF VALID POINTS FOR C BAND BACKSCATTER                    NUMERIC                    0            0  10 NUMERIC                   0         4".
Definition b6689 : text := " 022191 SPECTRAL DENSITY                                                 M**2*S/RAD                 2            0  20".
Definition b6690 : text := " 023001 ACCIDENT EARLY NOTIFICATION - ARTICLE APPLICABLE                 CODE TABLE 23001           0            0   3 CODE TABLE 0              0         1".
Definition b6691 : text := " 023002 ACTIVITY OR FACILITY INVOLVED IN INCIDENT                        CODE TABLE 23002           0            0   5 CODE TABLE 0              0         2".
Definition b6692 : text := " 023003 TYPE OF RELEASE                                                  CODE TABLE 23003           0            0   3 CODE TABLE 0              0         1".
Definition b6693 : text := " 023004 COUNTERMEASURES TAKEN NEAR BORDER                                CODE TABLE 23004           0            0   3 CODE TABLE 0              0         1".
Definition b6694 : text := " 023005 CAUSE OF INCIDENT                                                CODE TABLE 23005           0            0   2 CODE TABLE 0              0         1".
Definition b6695 : text := " 023006 INCIDENT SITUATION                                               CODE TABLE 23006           0            0   3 CODE TABLE 0              0         1".
Definition b6696 : text := " 023007 CHARACTERISTICS OF RELEASE                                       CODE TABLE 23007           0            0   3 CODE TABLE 0              0         1".
Definition b6697 : text := " 023008 STATE OF CURRENT RELEASE                                         CODE TABLE 23008           0            0   2 CODE TABLE 0              0         1".
Definition b6698 : text := " 023009 STATE OF EXPECTED RELEASE                                        CODE TABLE 23009           0            0   2 CODE TABLE 0              0         1".
Definition b6699 : text := " 023016 POSSIBILITY OF SIGNIFICANT CHEMICAL TOXIC HEALTH EFFECT          CODE TABLE 23016           0            0   2 CODE TABLE 0              0         1".
Definition b6700 : text := " 023017 FLOW DISCHARGE OF MAJOR RECIPIENT                                M3/S                       6            0  20 M3/S                      6         7".
Definition b6701 : text := " 023018 RELEASE BEHAVIOUR OVER TIME                                      CODE TABLE 23018           0            0   3 CODE TABLE 0              0         1".
Definition b6702 : text := " 023027 MAIN TRANSPORT DIRECTION IN THE ATMOSPHERE (DEGREE TRUE)         DEG                        0            0   9 DEG                       0         3".
Definition b6703 : text := " 023028 MAIN TRANSPORT DIRECTION IN WATER (DEGREE TRUE)                  DEG                        0            0   9 DEG                       0         3".
Definition b6704 : text := " 023029 MAIN TRANSPORT DIRECTION IN GROUND WATER (DEGREE TRUE)           DEG                        0            0   9 DEG                       0         3".
Definition b6705 : text := " 023031 POSSIBILITY THAT PLUME WILL ENCOUNTER PRECIPITATION IN STATE IN  CODE TABLE 23031           0            0   2 CODE TABLE 0              0         1".
Definition b6706 : text := " 023032 PLUME WILL ENCOUNTER CHANGE IN WIND DIRECTION AND/OR SPEED FLAG  CODE TABLE 23032           0            0   2 CODE TABLE 0              0         1".
Definition b6707 : text := " 024003 COMPOSITION OF RELEASE                                           CODE TABLE 24003           0            0   5 CODE TABLE 0              0         2".
Definition b6708 : text := " 024021 AIR CONCENTRATION (OF NAMED ISOTOPE TYPE INCLUDING GROSS BETA)   BQM-3                      2            0  32 BQ M-3                    2        10".
Definition b6709 : text := " 024022 CONCENTRATION IN PRECIPITATION (OF NAMED ISOTOPE TYPE)           Bq/L                       2            0  32 Bq/L                      2        10".
Definition b6710 : text := " 024023 PULSE RATE OF BETA RADIATION                                     /S                         1            0  14 /S                        1         4".
Definition b6711 : text := " 024024 PULSE RATE OF GAMMA RADIATION                                    /S                         1            0  14 /S                        1         4".
Definition b6712 : text := " 025004 ECHO PROCESSING                                                  CODE TABLE 25004           0            0   2 CODE TABLE 0              0         1".
Definition b6713 : text := " 025005 ECHO INTEGRATION                                                 CODE TABLE 25005           0            0   2 CODE TABLE 0              0         1".
Definition b6714 : text := " 025006 Z TO R CONVERSION                                                CODE TABLE 25006           0            0   3 CODE TABLE 0              0         1".
Definition b6715 : text := " 025009 CALIBRATION METHOD                                               FLAGTABLE                  0            0   4 FLAG TABLE                0         2".
Definition b6716 : text := " 025010 CLUTTER TREATMENT                                                CODE TABLE 25010           0            0   4 CODE TABLE 0              0         2".
Definition b6717 : text := " 025011 GROUND OCCULTATION CORRECTION (SCREENING)                        CODE TABLE 25011           0            0   2 CODE TABLE 0              0         1".
Definition b6718 : text := " 025012 RANGE ATTENUATION CORRECTION                                     CODE TABLE 25012           0            0   2 CODE TABLE 0              0         1".
Definition b6719 : text := " 025013 BRIGHT-BAND CORRECTION                                           FLAGTABLE                  0            0   2 FLAG TABLE                0         1".
Definition b6720 : text := " 025014 AZIMUTH CLUTTER CUT-OFF                                          NUMERIC                    0            0  12 NUMERIC                   0         4".
Definition b6721 : text := " 025015 RADOME ATTENUATION CORRECTION                                    FLAGTABLE                  0            0   2 FLAG TABLE                0         1".
Definition b6722 : text := " 025017 PRECIPITATION ATTENUATION CORRECTION                             FLAGTABLE                  0            0   2 FLAG TABLE                0         1".
Definition b6723 : text := " 025020 MEAN SPEED ESTIMATION                                            CODE TABLE 25020           0            0   2 CODE TABLE 0              0         1".
Definition b6724 : text := " 025021 WIND COMPUTATION ENHANCEMENT                                     FLAGTABLE                  0            0   8 FLAG TABLE                0         3".
Definition b6725 : text := " 025022 GHRSST REJECTION FLAG                                            FLAGTABLE                  0            0   9 FLAG TABLE                0         3".
Definition b6726 : text := " 025023 GHRSST CONFIDENCE FLAG                                           FLAGTABLE                  0            0   9 FLAG TABLE                0         3".
Definition b6727 : text := " 025024 GHRSST DATA QUALITY                                              CODE TABLE 25024           0            0   4 CODE TABLE 0              0         2".
Definition b6728 : text := " 025029 CALIBRATION METHOD                                               FLAGTABLE                  0            0   6 FLAG TABLE                0         2".
Definition b6729 : text := " 025030 RUNNING MEAN SEA-SURFACE TEMPERATURE USAGE                       CODE TABLE 25030           0            0   2 CODE TABLE 0              0         1".
Definition b6730 : text := " 025032 WIND PROFILER MODE INFORMATION                                   CODE TABLE 25032           0            0   2 CODE TABLE 0              0         1".
Definition b6731 : text := " 025033 WIND PROFILER SUBMODE INFORMATION                                CODE TABLE 25033           0            0   2 CODE TABLE 0              0         1".
Definition b6732 : text := " 025034 WIND PROFILER QUALITY CONTROL TEST RESULTS                       FLAGTABLE                  0            0   4 FLAG TABLE                0         2".
Definition b6733 : text := " 025036 ATMOSPHERICS LOCATION METHOD                                     CODE TABLE 25036           0            0   4 CODE TABLE 0              0         2".
Definition b6734 : text := " 025040 CO2 WIND PRODUCT DERIVATION                                      CODE TABLE 25040           0            0   4 CODE TABLE 0              0         2".
Definition b6735 : text := " 025041 MOVING PLATFORM DIRECTION REPORTING METHOD                       CODE TABLE 25041           0            0   2 CODE TABLE 0              0         1".
Definition b6736 : text := " 025042 MOVING PLATFORM SPEED REPORTING METHOD                           CODE TABLE 25042           0            0   2 CODE TABLE 0              0         1".
Definition b6737 : text := " 025045 HIRS CHANNEL COMBINATION                                         FLAGTABLE                  0            0  21 FLAG TABLE                0         7".
Definition b6738 : text := " 025046 MSU CHANNEL COMBINATION                                          FLAGTABLE                  0            0   5 FLAG TABLE                0         2".
Definition b6739 : text := " 025047 SSU CHANNEL COMBINATION                                          FLAGTABLE                  0            0   4 FLAG TABLE                0         2".
Definition b6740 : text := " 025048 AMSU-A CHANNEL COMBINATION                                       FLAGTABLE                  0            0  16 FLAG TABLE                0         6".
Definition b6741 : text := " 025049 AMSU-B CHANNEL COMBINATION                                       FLAGTABLE                  0            0   6 FLAG TABLE                0         2".
Definition b6742 : text := " 025051 AVHRR CHANNEL COMBINATION                                        FLAGTABLE                  0            0   7 FLAG TABLE                0         3".
Definition b6743 : text := " 025053 OBSERVATION QUALITY                                              FLAGTABLE                  0            0  12 FLAG TABLE                0         4".
Definition b6744 : text := " 025054 SSMIS SUBFRAME ID NUMBER                                         NUMERIC                    0            0   5 NUMERIC                   0         2".
Definition b6745 : text := " 025060 SOFTWARE IDENTIFICATION                                          NUMERIC                    0            0  14 NUMERIC                   0         5".
Definition b6746 : text := " 025065 ORIENTATION CORRECTION (AZIMUTH)                                 DEG                        2        -1000  11 DEG                       2         4".
Definition b6747 : text := " 025066 ORIENTATION CORRECTION (ELEVATION)                               DEG                        2        -1000  11 DEG                       2         4".
Definition b6748 : text := " 025069 FLIGHT LEVEL PRESSURE CORRECTIONS                                FLAGTABLE                  0            0   8 FLAG TABLE                0         3".
Definition b6749 : text := " 025076 LOG-10 OF (TEMPERATURE-RADIANCE CENTRAL WAVE NUMBER) FOR ATOVS   LOG(M-1)                   8            0  30 LOG (M-1)                 8        10".
Definition b6750 : text := " 025079 ALBEDO-RADIANCE SOLAR FILTERED IRRADIANCE FOR ATOVS              WM-2                       4            0  24 W M-2                     4         8".
Definition b6751 : text := " 025081 INCIDENCE ANGLE                                                  DEG                        3            0  17 DEG                       3         6".
Definition b6752 : text := " 025082 AZIMUTH ANGLE                                                    DEG                        3            0  19 DEG                       3         6".
Definition b6753 : text := " 025083 FARADAY ROTATIONAL ANGLE                                         DEG                        3            0  19 DEG                       3         6".
Definition b6754 : text := " 025084 GEOMETRIC ROTATIONAL ANGLE                                       DEG                        5            0  26 DEG                       5         8".
Definition b6755 : text := " 025086 DEPTH CORRECTION INDICATOR                                       CODE TABLE 25086           0            0   2 CODE TABLE 0              0         1".
Definition b6756 : text := " 025090 ORBIT STATE FLAG                                                 CODE TABLE 25090           0            0   4 CODE TABLE 0              0         2".
Definition b6757 : text := " 025093 RASS COMPUTATION CORRECTION                                      FLAGTABLE                  0            0   8 FLAG TABLE                0         3".
Definition b6758 : text := " 025095 ALTIMETER STATE FLAG                                             FLAGTABLE                  0            0   2 FLAG TABLE                0         1".
Definition b6759 : text := " 025096 RADIOMETER STATE FLAG                                            FLAGTABLE                  0            0   5 FLAG TABLE                0         2".
Definition b6760 : text := " 025097 THREE-DIMENSIONAL ERROR ESTIMATE OF THE NAVIGATOR ORBIT          CODE TABLE 25097           0            0   4 CODE TABLE 0              0         2".
Definition b6761 : text := " 025098 ALTIMETER DATA QUALITY FLAG                                      FLAGTABLE                  0            0   9 FLAG TABLE                0         3".
Definition b6762 : text := " 025099 ALTIMETER CORRECTION QUALITY FLAG                                FLAGTABLE                  0            0   9 FLAG TABLE                0         3".
Definition b6763 : text := " 025104 NUMBER OF WAVELENGTH BINS                                        NUMERIC                    0            0   8 NUMERIC                   0         3".
Definition b6764 : text := " 025105 FIRST DIRECTIONAL BIN                                            DEG                        3            0  19 DEG                       3         6".
Definition b6765 : text := " 025106 DIRECTIONAL BIN STEP                                             DEG                        3            0  19 DEG                       3         6".
Definition b6766 : text := " 025107 FIRST WAVELENGTH BIN                                             M                          3            0  29 M                         3         9".
Definition b6767 : text := " 025108 LAST WAVELENGTH BIN                                              M                          3            0  29 M                         3         9".
Definition b6768 : text := " 025110 IMAGE PROCESSING SUMMARY                                         FLAGTABLE                  0            0  10 FLAG TABLE                0         4".
Definition b6769 : text := " 025120 RA2-L2-PROCESSING FLAG                                           CODE TABLE 25120           0            0   2 CODE TABLE 0              0         1".
Definition b6770 : text := " 025122 HARDWARE CONFIGURATION FOR RF                                    CODE TABLE 25122           0            0   2 CODE TABLE 0              0         1".
Definition b6771 : text := " 025123 HARDWARE CONFIGURATION FOR HPA                                   CODE TABLE 25123           0            0   2 CODE TABLE 0              0         1".
Definition b6772 : text := " 025124 MWR-L2-PROCESSING FLAG                                           CODE TABLE 25124           0            0   2 CODE TABLE 0              0         1".
Definition b6773 : text := " 025125 MWR-L2-PROCESSING QUALITY                                        %                          0            0   7 %                         0         3".
Definition b6774 : text := " 025138 AVERAGE SIGNAL-TO-NOISE RATIO                                    NUMERIC                    0        -2048  12 NUMERIC                   0         4".
Definition b6775 : text := " 025150 METHOD OF TROPICAL CYCLONE INTENSITY ANALYSIS USING SATELLITE DA CODE TABLE 25150           0            0   4 CODE TABLE 0              0         2".
Definition b6776 : text := " 025160 KU BAND NET INSTRUMENTAL CORRECTION                              M                          4      -120000  18 M                         4         6".
Definition b6777 : text := " 025161 C BAND NET INSTRUMENTAL CORRECTION                               M                          4      -120000  18 M                         4         6".
Definition b6778 : text := " 025162 SEA STATE BIAS CORRECTION ON C BAND                              M                          4        -6000  13 M                         4         4".
Definition b6779 : text := " 025163 ALTIMETER IONOSPHERIC CORRECTION ON KU BAND                      M                          3       -32768  16 M                         3         5".
Definition b6780 : text := " 025164 RADIOMETER WET TROPOSPHERIC CORRECTION                           M                          4        -5000  13 M                         4         4".
Definition b6781 : text := " 025174 SMOS INFORMATION FLAG                                            FLAGTABLE                  0            0  14 FLAG TABLE                0         5".
Definition b6782 : text := " 026001 PRINCIPAL TIME OF DAILY READING IN UTC OF MAXIMUM TEMPERATURE    H                          1            0  12 H                         1         3".
Definition b6783 : text := " 026002 PRINCIPAL TIME OF DAILY READING IN UTC OF MINIMUM TEMPERATURE    H                          1            0  12 H                         1         3".
Definition b6784 : text := " 026003 TIME DIFFERENCE                                                  MIN                        0        -1440  12 MIN                       0         4".
Definition b6785 : text := " 026010 HOURS INCLUDED                                                   FLAGTABLE                  0            0  26 FLAG TABLE                0         9".
Definition b6786 : text := " 026020 DURATION OF PRECIPITATION                                        MIN                        0            0  11 MIN                       0         4".
Definition b6787 : text := " 027001 LATITUDE (HIGH ACCURACY)                                         DEG                        5     -9000000  25 DEG                       5         7".
Definition b6788 : text := " 027002 LATITUDE (COARSE ACCURACY)                                       DEG                        2        -9000  15 DEG                       2         4".
Definition b6789 : text := " 027003 ALTERNATE LATITUDE (COARSE ACCURACY)                             DEG                        2        -9000  15 DEG                       2         4".
Definition b6790 : text := " 027004 ALTERNATE LATITUDE (HIGH ACCURACY)                               DEG                        5     -9000000  25 DEG                       5         7".
Definition b6791 : text := " 027080 VIEWING AZIMUTH ANGLE (DEGREE TRUE)                              DEG                        2            0  16 DEG                       0         5".
Definition b6792 : text := " 028001 LONGITUDE (HIGH ACCURACY)                                        DEG                        5    -18000000  26 DEG                       5         8".
Definition b6793 : text := " 028002 LONGITUDE (COARSE ACCURACY)                                      DEG                        2       -18000  16 DEG                       2         5".
Definition b6794 : text := " 028003 ALTERNATE LONGITUDE (COARSE ACCURACY)                            DEG                        2       -18000  16 DEG                       2         5".
Definition b6795 : text := " 028004 ALTERNATE LONGITUDE (HIGH ACCURACY)                              DEG                        5    -18000000  26 DEG                       5         8".
Definition b6796 : text := " 029001 PROJECTION TYPE                                                  CODE TABLE 29001           0            0   3 CODE TABLE 0              0         1".
Definition b6797 : text := " 029002 COORDINATE GRID TYPE                                             CODE TABLE 29002           0            0   3 CODE TABLE 0              0         1".
Definition b6798 : text := " 030031 PICTURE TYPE                                                     CODE TABLE 30031           0            0   4 CODE TABLE 0              0         2".
Definition b6799 : text := " 030032 COMBINATION WITH OTHER DATA                                      FLAGTABLE                  0            0  16 FLAG TABLE                0         6".
Definition b6800 : text := " 031000 SHORT DELAYED DESCRIPTOR REPLICATION FACTOR                      NUMERIC                    0            0   1 ".
Definition b6801 : text := " 031001 DELAYED DESCRIPTOR REPLICATION FACTOR                            NUMERIC                    0            0   8 ".
Definition b6802 : text := " 031002 EXTENDED DELAYED DESCRIPTOR REPLICATION FACTOR                   NUMERIC                    0            0  16 ".
Definition b6803 : text := " 031011 DELAYED DESCRIPTOR AND DATA REPETITION FACTOR                    NUMERIC                    0            0   8 ".
Definition b6804 : text := " 031012 EXTENDED DELAYED DESCRIPTOR AND DATA REPETITION FACTOR           NUMERIC                    0            0  16 ".
Definition b6805 : text := " 031021 ASSOCIATED FIELD SIGNIFICANCE                                    CODE TABLE 31021           0            0   6 ".
Definition b6806 : text := " 031031 DATA PRESENT INDICATOR                                           FLAGTABLE                  0            0   1 ".
Definition b6807 : text := " 033002 QUALITY INFORMATION                                              CODE TABLE 33002           0            0   2 CODE TABLE 0              0         1".
Definition b6808 : text := " 033003 QUALITY INFORMATION                                              CODE TABLE 33003           0            0   3 CODE TABLE 0              0         1".
Definition b6809 : text := " 033005 QUALITY INFORMATION (AWS DATA)                                   FLAGTABLE                  0            0  30 FLAG TABLE                0        10".
Definition b6810 : text := " 033006 INTERNAL MEASUREMENT STATUS INFORMATION (AWS)                    CODE TABLE 33006           0            0   3 CODE TABLE 0              0         1".
Definition b6811 : text := " 033009 RELATIVE ERROR                                                   %                          2            0  14 %                         2         5".
Definition b6812 : text := " 033015 DATA QUALITY CHECK INDICATOR                                     CODE TABLE 33015           0            0   6 CODE TABLE 0              0         2".
Definition b6813 : text := " 033020 QUALITY CONTROL INDICATION OF FOLLOWING VALUE                    CODE TABLE 33020           0            0   3 CODE TABLE 0              0         1".
Definition b6814 : text := " 033021 QUALITY OF FOLLOWING VALUE                                       CODE TABLE 33021           0            0   2 CODE TABLE 0              0         1".
Definition b6815 : text := " 033022 QUALITY OF BUOY SATELLITE TRANSMISSION                           CODE TABLE 33022           0            0   2 CODE TABLE 0              0         1".
Definition b6816 : text := " 033023 QUALITY OF BUOY LOCATION                                         CODE TABLE 33023           0            0   2 CODE TABLE 0              0         1".
Definition b6817 : text := " 033024 STATION ELEVATION QUALITY MARK (FOR MOBILE STATIONS)             CODE TABLE 33024           0            0   4 CODE TABLE 0              0         2".
Definition b6818 : text := " 033025 ACARS INTERPOLATED VALUES INDICATOR                              CODE TABLE 33025           0            0   3 CODE TABLE 0              0         1".
Definition b6819 : text := " 033026 MOISTURE QUALITY                                                 CODE TABLE 33026           0            0   6 CODE TABLE 0              0         2".
Definition b6820 : text := " 033027 LOCATION QUALITY CLASS (RANGE OF RADIUS OF 66 % CONFIDENCE)      CODE TABLE 33027           0            0   3 CODE TABLE 0              0         1".
Definition b6821 : text := " 033028 SNAPSHOT OVERALL QUALITY                                         CODE TABLE 33028           0            0   3 CODE TABLE 0              0         1".
Definition b6822 : text := " 033030 SCAN LINE STATUS FLAGS FOR ATOVS                                 FLAGTABLE                  0            0  24 FLAG TABLE                0         8".
Definition b6823 : text := " 033031 SCAN LINE QUALITY FLAGS FOR ATOVS                                FLAGTABLE                  0            0  24 FLAG TABLE                0         8".
Definition b6824 : text := " 033032 CHANNEL QUALITY FLAGS FOR ATOVS                                  FLAGTABLE                  0            0  24 FLAG TABLE                0         8".
Definition b6825 : text := " 033033 FIELD OF VIEW QUALITY FLAGS FOR ATOVS                            FLAGTABLE                  0            0  24 FLAG TABLE                0         8".
Definition b6826 : text := " 033035 MANUAL/AUTOMATIC QUALITY CONTROL                                 CODE TABLE 33035           0            0   4 CODE TABLE 0              0         2".
Definition b6827 : text := " 033037 WIND CORRELATION ERROR                                           FLAGTABLE                  0            0  20 FLAG TABLE                0         7".
Definition b6828 : text := " 033038 QUALITY FLAGS FOR GROUND-BASED GNSS DATA                         FLAGTABLE                  0            0  10 FLAG TABLE                0         4".
Definition b6829 : text := " 033039 QUALITY FLAGS FOR RADIO OCCULTATION DATA                         FLAGTABLE                  0            0  16 FLAG TABLE                0         6".
Definition b6830 : text := " 033040 CONFIDENCE INTERVAL                                              %                          0            0   7 %                         0         3".
Definition b6831 : text := " 033041 ATTRIBUTE OF FOLLOWING VALUE                                     CODE TABLE 33041           0            0   2 CODE TABLE 0              0         1".
Definition b6832 : text := " 033042 TYPE OF LIMIT REPRESENTED BY FOLLOWING VALUE                     CODE TABLE 33042           0            0   3 CODE TABLE 0              0         1".
Definition b6833 : text := " 033043 AST CONFIDENCE                                                   FLAGTABLE                  0            0   8 FLAG TABLE                0         3".
Definition b6834 : text := " 033044 ASAR QUALITY INFORMATION                                         FLAGTABLE                  0            0  15 FLAG TABLE                0         5".
Definition b6835 : text := " 033047 MEASUREMENT CONFIDENCE DATA                                      FLAGTABLE                  0            0  31 FLAG TABLE                0        11".
Definition b6836 : text := " 033048 CONFIDENCE MEASURE OF SAR INVERSION                              CODE TABLE 33048           0            0   2 CODE TABLE 0              0         1".
Definition b6837 : text := " 033049 CONFIDENCE MEASURE OF WIND RETRIEVAL                             CODE TABLE 33049           0            0   2 CODE TABLE 0              0         1".
Definition b6838 : text := " 033050 GLOBAL GTSPP QUALITY FLAG                                        CODE TABLE 33050           0            0   4 CODE TABLE 0              0         2".
Definition b6839 : text := " 033052 S-BAND OCEAN RETRACKING QUALITY                                  FLAGTABLE                  0            0  21 FLAG TABLE                0         7".
Definition b6840 : text := " 033053 KU BAND OCEAN RETRACKING QUALITY                                 FLAGTABLE                  0            0  21 FLAG TABLE                0         7".
Definition b6841 : text := " 033060 GQISFLAGQUAL - INDIVIDUAL IASI-SYSTEM QUALITY FLAG               CODE TABLE 33060           0            0   2 CODE TABLE 0              0         1".
Definition b6842 : text := " 033061 GQISQUALINDEX - INDICATOR FOR INSTRUMENT NOISE PERFORMANCE (CONT %                          0            0   7 %                         0         3".
Definition b6843 : text := " 033063 GQISQUALINDEXRAD - INDICATOR FOR INSTRUMENT NOISE PERFORMANCE (C %                          0            0   7 %                         0         3".
Definition b6844 : text := " 033065 GQISSYSTECSONDQUAL - OUTPUT OF SYSTEM TEC (TECHNICAL EXPERTISE C NUMERIC                    0            0  24 NUMERIC                   0         8".
Definition b6845 : text := " 033070 TOTAL OZONE QUALITY                                              CODE TABLE 33070           0            0   4 CODE TABLE 0              0         2".
Definition b6846 : text := " 033071 PROFILE OZONE QUALITY                                            CODE TABLE 33071           0            0   4 CODE TABLE 0              0         2".
Definition b6847 : text := " 033072 OZONE ERROR                                                      CODE TABLE 33072           0            0   5 CODE TABLE 0              0         2".
Definition b6848 : text := " 033075 SCAN-LEVEL QUALITY FLAGS                                         FLAGTABLE                  0            0  13 FLAG TABLE                0         5".
Definition b6849 : text := " 033076 CALIBRATION QUALITY FLAGS                                        FLAGTABLE                  0            0   9 FLAG TABLE                0         3".
Definition b6850 : text := " 033077 FIELD-OF-VIEW QUALITY FLAGS                                      FLAGTABLE                  0            0  19 FLAG TABLE                0         7".
Definition b6851 : text := " 033078 GEOLOCATION QUALITY                                              CODE TABLE 33078           0            0   4 CODE TABLE 0              0         2".
Definition b6852 : text := " 033079 GRANULE LEVEL QUALITY FLAGS                                      FLAGTABLE                  0            0  16 FLAG TABLE                0         6".
Definition b6853 : text := " 033080 SCAN LEVEL QUALITY FLAGS                                         FLAGTABLE                  0            0  20 FLAG TABLE                0         7".
Definition b6854 : text := " 033081 CHANNEL DATA QUALITY FLAGS                                       FLAGTABLE                  0            0  12 FLAG TABLE                0         4".
Definition b6855 : text := " 035000 FM AND REGIONAL CODE NUMBER                                      CODE TABLE 35000           0            0  10 CODE TABLE 0              0         3".
Definition b6856 : text := " 035001 TIME-FRAME FOR MONITORING                                        CODE TABLE 35001           0            0   3 CODE TABLE 0              0         1".
Definition b6857 : text := " 035030 DISCREPANCIES IN THE AVAILABILITY OF EXPECTED DATA               CODE TABLE 35030           0            0   4 CODE TABLE 0              0         1".
Definition b6858 : text := " 035031 QUALIFIER ON MONITORING RESULTS                                  CODE TABLE 35031           0            0   7 CODE TABLE 0              0         2".
Definition b6859 : text := " 035032 CAUSE OF MISSING DATA                                            CODE TABLE 35032           0            0   4 CODE TABLE 0              0         1".
Definition b6860 : text := " 035033 OBSERVATION AND COLLECTION DEFICIENCIES                          CODE TABLE 35033           0            0   7 CODE TABLE 0              0         2".
Definition b6861 : text := " 035034 STATISTICAL TRENDS FOR AVAILABILITY OF DATA (DURING THE SURVEY P CODE TABLE 35034           0            0   3 CODE TABLE 0              0         1".
Definition b6862 : text := " 035035 REASON FOR TERMINATION                                           CODE TABLE 35035           0            0   5 CODE TABLE 0              0         2".
Definition b6863 : text := " 040005 SOIL MOISTURE CORRECTION FLAG                                    FLAGTABLE                  0            0   8 FLAG TABLE                0         3".
Definition b6864 : text := " 040006 SOIL MOISTURE PROCESSING FLAG                                    FLAGTABLE                  0            0  16 FLAG TABLE                0         6".
Definition b6865 : text := " 040011 INTERPOLATION FLAG                                               FLAGTABLE                  0            0   8 FLAG TABLE                0         3".
Definition b6866 : text := " 040012 RADIOMETER DATA QUALITY FLAG                                     FLAGTABLE                  0            0   8 FLAG TABLE                0         3".
Definition b6867 : text := " 040013 RADIOMETER BRIGHTNESS TEMPERATURE INTERPRETATION FLAG            CODE TABLE 40013           0            0   3 CODE TABLE 0              0         1".
Definition b6868 : text := " 040014 HIGH-FREQUENCY FLUCTUATIONS OF THE SEA-SURFACE TOPOGRAPHY CORREC M                          4        -3000  13 M                         4         4".
Definition b6869 : text := " 040015 NORMALISED DIFFERENTIAL VEGETATION INDEX (NDVI)                  NUMERIC                    2         -100   8 NUMERIC                   2         3".
Definition b6870 : text := " 040016 RESIDUAL RMS IN BAND                                             NUMERIC                    3            0  14 NUMERIC                   3         5".
Definition b6871 : text := " 040017 NON-NORMALISED PRINCIPAL COMPONENT SCORE                         NUMERIC                    0  -1073741824  31 NUMERIC                   0        10".
Definition b6872 : text := " 040018 GIACAVGIMAGIIS - AVERAGE OF IMAGER MEASUREMENTS                  WM-2SR-1M                  6            0  24 W M-2 SR-1 M              6         8".
Definition b6873 : text := " 040019 GIACVARIMAGIIS - VARIANCE OF IMAGER MEASUREMENTS                 WM-2SR-1M                  6            0  24 W M-2 SR-1 M              6         8".
Definition b6874 : text := " 040020 GQISFLAGQUALDETAILED - QUALITY FLAG FOR THE SYSTEM               FLAGTABLE                  0            0  17 FLAG TABLE                0         6".
Definition b6875 : text := " 040021 FRACTION OF WEIGHTED AVHRR PIXEL IN IASI FOV COVERED WITH SNOW/I %                          0            0   7 %                         0         3".
Definition b6876 : text := " 040022 NUMBER OF MISSING, BAD OR FAILED AVHRR PIXELS                    NUMERIC                    0            0   7 NUMERIC                   0         3".
Definition b6877 : text := " 040023 AUXILIARY ALTIMETER STATE FLAGS                                  FLAGTABLE                  0            0   5 FLAG TABLE                0         2".
Definition b6878 : text := " 040024 METEOROLOGICAL MAP AVAILABILITY                                  CODE TABLE 40024           0            0   3 CODE TABLE 0              0         1".
Definition b6879 : text := " 040025 INTERPOLATION FLAG FOR MEAN DIURNAL TIDE                         CODE TABLE 40025           0            0   2 CODE TABLE 0              0         1".
Definition b6880 : text := " 000026 Bit number                                                       CCITTIA5                   0            0  48 CHARACTER                 0         6".
Definition b6881 : text := " 001012 Direction of motion of moving observing platform                 DEGREE TRUE                0            0   9 DEGREE TRUE               0         3".
Definition b6882 : text := " 001087 WMO marine observing platform extended identifier                NUMERIC                    0            0  23 NUMERIC                   0         7".
Definition b6883 : text := " 002017 Correction algorithms for humidity measurements                  CODE TABLE                 0            0   5 CODE TABLE                0         2".
Definition b6884 : text := " 002170 Aircraft humidity sensors                                        CODE TABLE                 0            0   6 CODE TABLE                0         2".
Definition b6885 : text := " 005021 Bearing or azimuth                                               DEGREE TRUE                2            0  16 DEGREE TRUE               2         5".
Definition b6886 : text := " 005022 Solar azimuth                                                    DEGREE TRUE                2            0  16 DEGREE TRUE               2         5".
Definition b6887 : text := " 007003 Geopotential                                                     M2 S-2                    -1         -400  17 M2 S-2                   -1         6".
Definition b6888 : text := " 008086 Vertical significance for NWP                                    FLAG TABLE                 0            0  12 FLAG TABLE                0         4".
Definition b6889 : text := " 011001 Wind direction                                                   DEGREE TRUE                0            0   9 DEGREE TRUE               0         3".
Definition b6890 : text := " 011010 Wind direction associated with wind speed which follows          DEGREE TRUE                0            0   9 DEGREE TRUE               0         3".
Definition b6891 : text := " 011011 Wind direction at 10 m                                           DEGREE TRUE                0            0   9 DEGREE TRUE               0         3".
Definition b6892 : text := " 011013 Wind direction at 5 m                                            DEGREE TRUE                0            0   9 DEGREE TRUE               0         3".
Definition b6893 : text := " 011016 Extreme counterclockwise wind direction of a variable wind       DEGREE TRUE                0            0   9 DEGREE TRUE               0         3".
Definition b6894 : text := " 011017 Extreme clockwise wind direction of a variable wind              DEGREE TRUE                0            0   9 DEGREE TRUE               0         3".
Definition b6895 : text := " 011043 Maximum wind gust direction                                      DEGREE TRUE                0            0   9 DEGREE TRUE               0         3".
Definition b6896 : text := " 011044 Mean wind direction for surface - 1 500 m (5 000 feet)           DEGREE TRUE                0            0   9 DEGREE TRUE               0         3".
Definition b6897 : text := " 011045 Mean wind speed for surface - 1 500 m (5 000 feet)               M/S                        1            0  12 M/S                       1         4".
Definition b6898 : text := " 011049 Standard deviation of wind direction                             DEGREE TRUE                0            0   9 DEGREE TRUE               0         3".
Definition b6899 : text := " 011053 Formal uncertainty in wind direction                             DEGREE TRUE                2            0  15 DEGREE TRUE               2         5".
Definition b6900 : text := " 011054 Mean wind direction for 1 500 - 3 000 m                          DEGREE TRUE                0            0   9 DEGREE TRUE               0         3".
Definition b6901 : text := " 011055 Mean wind speed for 1 500 - 3 000 m                              M/S                        1            0  12 M/S                       1         4".
Definition b6902 : text := " 011081 Model wind direction at 10 m                                     DEGREE TRUE                2            0  16 DEGREE TRUE               2         5".
Definition b6903 : text := " 011082 Model wind speed at 10 m                                         M/S                        2            0  14 M/S                       2         4".
Definition b6904 : text := " 011100 Aircraft true airspeed                                           M/S                        1            0  12 M/S                       1         4".
Definition b6905 : text := " 011101 Aircraft ground speed u-component                                M/S                        1        -4096  13 M/S                       1         4".
Definition b6906 : text := " 011102 Aircraft ground speed v-component                                M/S                        1        -4096  13 M/S                       1         4".
Definition b6907 : text := " 011103 Aircraft ground speed w-component                                M/S                        1         -512  10 M/S                       1         3".
Definition b6908 : text := " 011104 Aircraft true heading                                            DEGREE TRUE                0            0   9 DEGREE TRUE               0         3".
Definition b6909 : text := " 011108 Peak location                                                    NUMERIC                    1            0   4 NUMERIC                   1         2".
Definition b6910 : text := " 012024 Dew-point temperature                                            C                          0          -99   8 C                         0         2".
Definition b6911 : text := " 012167 Radiometric accuracy (pure polarization)                         K                          1            0   9 K                         1         3".
Definition b6912 : text := " 012168 Radiometric accuracy (cross polarization)                        K                          1            0   9 K                         1         3".
Definition b6913 : text := " 013085 Oxydation Reduction Potential (ORP)                              V                          3            0  14 V                         3         4".
Definition b6914 : text := " 013099 Log_10 of integrated Cloud particle density                      LOG(M-2)                   1            0   7 LOG(M-2)                  1         3".
Definition b6915 : text := " 013100 Log_10 of integrated cloud particle area                         LOG(M2 M-2)                1          -70   7 LOG(M2 M-2)               1         2".
Definition b6916 : text := " 013101 Log_10 of integrated cloud particle volume                       LOG(M3 M-2)                1         -140   7 LOG(M3 M-2)               1         3".
Definition b6917 : text := " 013118 Depth of fresh snow (high accuracy)                              M                          3           -2  14 M                         3         5".
Definition b6918 : text := " 013155 Intensity of precipitation (high accuracy)                       KG M-2 S-1                 5           -1  16 MM/H                      2         5".
Definition b6919 : text := " 014054 Photosynthetically active radiation, integrated over period spec J M-2                     -3            0  16 J M-2                    -3         5".
Definition b6920 : text := " 014057 Soil heat flux                                                   J M-2                     -2     -1048574  21 J M-2                    -2         7".
Definition b6921 : text := " 015051 Meteorological optical range                                     M                          0            0  18 M                         0         6".
Definition b6922 : text := " 015052 Log_10 of Number density of aerosol particles with diameter grea LOG(M-3)                   1           60   6 LOG(M-3)                  1         3".
Definition b6923 : text := " 015053 Log_10 of Number density of aerosol particles with diameter grea LOG(M-3)                   2          600   9 LOG(M-3)                  2         4".
Definition b6924 : text := " 015054 Log_10 of Number density of aerosol particles with diameter betw LOG(M-3)                   2          550   9 LOG(M-3)                  2         4".
Definition b6925 : text := " 015055 Non volatile aerosol ratio                                       NUMERIC                    2            0   7 NUMERIC                   2         3".
Definition b6926 : text := " 019005 Direction of motion of feature                                   DEGREE TRUE                0            0   9 DEGREE TRUE               0         3".
Definition b6927 : text := " 020032 Rate of ice accretion (estimated)                                CODE TABLE                 0            0   3 CODE TABLE                0         1".
Definition b6928 : text := " 020038 Bearing of ice edge                                              DEGREE TRUE                0            0  12 DEGREE TRUE               0         3".
Definition b6929 : text := " 020054 True direction from which a phenomenon or clouds are moving      DEGREE TRUE                0            0   9 DEGREE TRUE               0         3".
Definition b6930 : text := " 020123 Minimum threshold for detection                                  V/M                        3            0  16 V/M                       3         5".
Definition b6931 : text := " 020128 Lightning - direction from station                               DEGREE TRUE                1            0  12 DEGREE TRUE               1         4".
Definition b6932 : text := " 021031 Vertically integrated liquid-water content                       KG M-2                     0            0   7 KG M-2                    0         3".
Definition b6933 : text := " 021086 Number of pixels in nadir only, average                          NUMERIC                    0            0   9 NUMERIC                   0         3".
Definition b6934 : text := " 022001 Direction of waves                                               DEGREE TRUE                0            0   9 DEGREE TRUE               0         3".
Definition b6935 : text := " 022002 Direction of wind waves                                          DEGREE TRUE                0            0   9 DEGREE TRUE               0         3".
Definition b6936 : text := " 022003 Direction of swell waves                                         DEGREE TRUE                0            0   9 DEGREE TRUE               0         3".
Definition b6937 : text := " 022004 Direction of current                                             DEGREE TRUE                0            0   9 DEGREE TRUE               0         3".
Definition b6938 : text := " 022005 Direction of sea surface current                                 DEGREE TRUE                0            0   9 DEGREE TRUE               0         3".
Definition b6939 : text := " 022076 Direction from which dominant waves are coming                   DEGREE TRUE                0            0   9 DEGREE TRUE               0         3".
Definition b6940 : text := " 022086 Mean direction from which waves are coming                       DEGREE TRUE                0            0   9 DEGREE TRUE               0         3".
Definition b6941 : text := " 022087 Principal direction from which waves are coming                  DEGREE TRUE                0            0   9 DEGREE TRUE               0         3".
Definition b6942 : text := " 022099 Mean direction at low wave numbers (wavelength > 731 m)          DEGREE TRUE                0            0   9 DEGREE TRUE               0         3".
Definition b6943 : text := " 023027 Main transport direction in the atmosphere                       DEGREE TRUE                0            0   9 DEGREE TRUE               0         3".
Definition b6944 : text := " 023028 Main transport direction in water                                DEGREE TRUE                0            0   9 DEGREE TRUE               0         3".
Definition b6945 : text := " 023029 Main transport direction in ground water                         DEGREE TRUE                0            0   9 DEGREE TRUE               0         3".
Definition b6946 : text := " 024022 Concentration in precipitation (of named isotope type)           BQ/L                       2            0  32 BQ/L                      2        10".
Definition b6947 : text := " 025031 NWP-generated vertical profile thinning method                   CODE TABLE                 0            0   3 CODE TABLE                0         1".
Definition b6948 : text := " 025076 Log-10 of (temperature-radiance central wave number) for ATOVS   LOG (M-1)                  8            0  30 LOG (M-1)                 8        10".
Definition b6949 : text := " 027080 Viewing azimuth angle                                            DEGREE TRUE                2            0  16 DEGREE TRUE               0         5".
Definition b6950 : text := " 035001 Time frame for monitoring                                        CODE TABLE                 0            0   3 CODE TABLE                0         1".
Definition b6951 : text := " 040014 High-frequency fluctuations of the sea-surface topography correc M                          4        -3000  13 M                         4         4".
Definition b6952 : text := " 040015 Normalized differential vegetation index (NDVI)                  NUMERIC                    2         -100   8 NUMERIC                   2         3".
Definition b6953 : text := " 040017 Non-normalized principal component score                         NUMERIC                    0  -1073741824  31 NUMERIC                   0        10".
Definition b6954 : text := " 001040 Processing centre ID code                                        CCITTIA5                   0            0  48 CHARACTER                 0         6".
Definition b6955 : text := " 001079 Unique identifier for the profile                                CCITTIA5                   0            0  64 CHARACTER                 0         8".
Definition b6956 : text := " 001103 IMO Number. Unique Lloyd's registry                              NUMERIC                    0            0  24 NUMERIC                   0         7".
Definition b6957 : text := " 002139 SIRAL instrument configuration                                   CODE TABLE                 0            0   2 CODE TABLE                0         1".
Definition b6958 : text := " 002171 Instrument serial number for water temperature profile measureme CCITTIA5                   0            0  64 CHARACTER                 0         8".
Definition b6959 : text := " 008010 Surface qualifier (temperature data)                             CODE TABLE                 0            0   5 CODE TABLE                0         2".
Definition b6960 : text := " 008079 Product status                                                   CODE TABLE                 0            0   4 CODE TABLE                0         2".
Definition b6961 : text := " 010079 Off nadir angle of the satellite from platform data              DEG                        4            0  16 DEG                       4         5".
Definition b6962 : text := " 012002 Wet-bulb temperature                                             K                          1            0  12 C                         1         3".
Definition b6963 : text := " 012004 Air temperature at 2 m                                           K                          1            0  12 C                         1         3".
Definition b6964 : text := " 013099 Log_10 of integrated cloud particle density                      LOG(M-2)                   1            0   7 LOG(M-2)                  1         3".
Definition b6965 : text := " 015052 Log_10 of number density of aerosol particles with diameter grea LOG(M-3)                   1           60   6 LOG(M-3)                  1         3".
Definition b6966 : text := " 015053 Log_10 of number density of aerosol particles with diameter grea LOG(M-3)                   2          600   9 LOG(M-3)                  2         4".
Definition b6967 : text := " 015054 Log_10 of number density of aerosol particles with diameter betw LOG(M-3)                   2          550   9 LOG(M-3)                  2         4".
Definition b6968 : text := " 020113 z-axis error ellipse component                                   M                         -1            0  17 M                        -1         6".
Definition b6969 : text := " 020126 Lightning rate of discharge                                      H-1                        0            0  23 H-1                       0         7".
Definition b6970 : text := " 021138 STD Ku band corrected ocean backscatter coefficient              DB                         2       -32768  16 DB                        2         5".
Definition b6971 : text := " 021141 STD S band corrected ocean backscatter coefficient               DB                         2       -32768  16 DB                        2         5".
Definition b6972 : text := " 021158 ASCAT Kp quality estimate                                        CODE TABLE                 0            0   2 CODE TABLE                0         1".
Definition b6973 : text := " 021161 ASCAT synthetic data quantity                                    NUMERIC                    3            0  10 NUMERIC                   3         4".
Definition b6974 : text := " 021176 High frequency variability correction                            M                          3            0  16 M                         3         5".
Definition b6975 : text := " 021177 Corrected OCOG backscatter coefficient                           DB                         2            0  16 DB                        2         5".
Definition b6976 : text := " 021178 STD of 20 Hz OCOG backscatter coefficient                        DB                         2            0  16 DB                        2         5".
Definition b6977 : text := " 021179 Number of 20 Hz valid points for OCOG backscatter coefficient    NUMERIC                    0            0  16 NUMERIC                   0         5".
Definition b6978 : text := " 021180 Number of 20 Hz valid points for ocean backscatter coefficient   NUMERIC                    0            0   8 NUMERIC                   0         3".
Definition b6979 : text := " 021181 20 Hz ocean backscatter coefficient                              DB                         2            0  16 DB                        2         5".
Definition b6980 : text := " 021182 20 Hz Ku band peakiness                                          NUMERIC                    3            0  16 NUMERIC                   3         5".
Definition b6981 : text := " 022142 Square of significant wave height                                M2                         3    -33554432  26 M2                        3         8".
Definition b6982 : text := " 022143 STD of 20 Hz SWH squared                                         M2                         3     -8388608  24 M2                        3         8".
Definition b6983 : text := " 022144 Number of 20 Hz valid points for SWH squared                     NUMERIC                    0            0   9 NUMERIC                   0         3".
Definition b6984 : text := " 022145 STD of 20 Hz ocean range                                         M                          3    -33554432  31 M                         3        10".
Definition b6985 : text := " 022146 OCOG range                                                       M                          3            0  31 M                         3        10".
Definition b6986 : text := " 022147 STD of 20 Hz OCOG range                                          M                          3     -8388608  31 M                         3        10".
Definition b6987 : text := " 022148 Number of 20 Hz valid points for ocean range                     NUMERIC                    0            0   9 NUMERIC                   0         3".
Definition b6988 : text := " 022149 20 Hz significant wave height squared                            M2                         3    -33554432  26 M2                        3         8".
Definition b6989 : text := " 022177 Height of XBT/XCTD launcher                                      M                          0            0   6 M                         0         3".
Definition b6990 : text := " 022178 XBT/XCTD launcher type                                           CODE TABLE                 0            0   8 CODE TABLE                0         3".
Definition b6991 : text := " 025180 LRM mode per cent                                                %                          2            0  16 %                         2         5".
Definition b6992 : text := " 025181 L2 processing flag                                               CODE TABLE                 0            0   2 CODE TABLE                0         1".
Definition b6993 : text := " 025182 L1 processing flag                                               CODE TABLE                 0            0   2 CODE TABLE                0         1".
Definition b6994 : text := " 025183 L1 processing quality                                            %                          2            0  14 %                         2         5".
Definition b6995 : text := " 025184 L2 product status                                                CODE TABLE                 0            0   2 CODE TABLE                0         1".
Definition b6996 : text := " 026021 Year                                                             A                          0            0  12 A                         0         4".
Definition b6997 : text := " 026022 Month                                                            MON                        0            0   4 MON                       0         2".
Definition b6998 : text := " 026023 Day                                                              D                          0            0   6 D                         0         2".
Definition b6999 : text := " 033084 Pixel level quality flags                                        FLAG TABLE                 0            0  16 FLAG TABLE                0         6".
Definition b7000 : text := " 033086 Quality of pixel level retrieval                                 CODE TABLE                 0            0   3 CODE TABLE                0         1".
Definition b7001 : text := " 000006 BUFR Master table version number                                 CCITTIA5                   0            0  16 CHARACTER                 0         2".
Definition b7002 : text := " 001103 IMO Number. Unique Lloyd's register                              NUMERIC                    0            0  24 NUMERIC                   0         7".
Definition b7003 : text := " 002042 Indicator for sea-surface current speed                          CODE TABLE                 0            0   2 CODE TABLE                0         1".
Definition b7004 : text := " 002058 Valid times of first-guess information for GOES-I/M soundings    CODE TABLE                 0            0   4 CODE TABLE                0         2".
Definition b7005 : text := " 002119 RA-2 instrument operations                                       CODE TABLE                 0            0   3 CODE TABLE                0         1".
Definition b7006 : text := " 002145 Wave length setting for Dobson instruments                       CODE TABLE                 0            0   4 CODE TABLE                0         2".
Definition b7007 : text := " 002158 RA-2 instrument                                                  FLAG TABLE                 0            0   9 FLAG TABLE                0         3".
Definition b7008 : text := " 002159 MWR instrument                                                   FLAG TABLE                 0            0   8 FLAG TABLE                0         3".
Definition b7009 : text := " 010079 Off-nadir angle of the satellite from platform data              DEG                        4            0  16 DEG                       4         5".
Definition b7010 : text := " 010083 Squared off-nadir angle of the satellite from platform data      DEG2                       2            0  16 DEG2                      2         5".
Definition b7011 : text := " 010084 Squared off-nadir angle of the satellite from waveform data      DEG2                       2            0  16 DEG2                      2         5".
Definition b7012 : text := " 010085 Mean sea-surface height                                          M                          3      -131072  18 M                         3         6".
Definition b7013 : text := " 010097 Mean sea-surface height from altimeter only                      M                          3      -131072  18 M                         3         6".
Definition b7014 : text := " 010101 Squared off-nadir angle of the satellite from waveform data      DEG2                       2       -32768  16 DEG2                      2         5".
Definition b7015 : text := " 010102 Sea-surface height anomaly                                       M                          3       -32768  16 M                         3         5".
Definition b7016 : text := " 012003 Dewpoint temperature                                             K                          1            0  12 C                         1         3".
Definition b7017 : text := " 012006 Dewpoint temperature at 2 m                                      K                          1            0  12 C                         1         3".
Definition b7018 : text := " 012024 Dewpoint temperature                                             C                          0          -99   8 C                         0         2".
Definition b7019 : text := " 012103 Dewpoint temperature                                             K                          2            0  16 C                         2         4".
Definition b7020 : text := " 012106 Dewpoint temperature at 2 m                                      K                          2            0  16 C                         2         4".
Definition b7021 : text := " 013099 Log10 of integrated cloud particle density                       LOG(M-2)                   1            0   7 LOG(M-2)                  1         3".
Definition b7022 : text := " 013100 Log10 of integrated cloud particle area                          LOG(M2 M-2)                1          -70   7 LOG(M2 M-2)               1         2".
Definition b7023 : text := " 013101 Log10 of integrated cloud particle volume                        LOG(M3 M-2)                1         -140   7 LOG(M3 M-2)               1         3".
Definition b7024 : text := " 014035 Solar radiation flux                                             W M-2                      1            0  14 W M-2                     1         5".
Definition b7025 : text := " 015011 Log10 of integrated electron density                             LOG (M-2)                  3        14000  13 LOG (M-2)                 3         4".
Definition b7026 : text := " 015052 Log10 of number density of aerosol particles with diameter great LOG(M-3)                   1           60   6 LOG(M-3)                  1         3".
Definition b7027 : text := " 015053 Log10 of number density of aerosol particles with diameter great LOG(M-3)                   2          600   9 LOG(M-3)                  2         4".
Definition b7028 : text := " 015054 Log10 of number density of aerosol particles with diameter betwe LOG(M-3)                   2          550   9 LOG(M-3)                  2         4".
Definition b7029 : text := " 021085 ATSR sea-surface temperature across-track band number            NUMERIC                    0            0   4 NUMERIC                   0         2".
Definition b7030 : text := " 021150 Beam collocation                                                 CODE TABLE                 0            0   2 CODE TABLE                0         1".
Definition b7031 : text := " 021158 ASCAT Kp estimate quality                                        CODE TABLE                 0            0   2 CODE TABLE                0         1".
Definition b7032 : text := " 022005 Direction of sea-surface current                                 DEGREE TRUE                0            0   9 DEGREE TRUE               0         3".
Definition b7033 : text := " 022032 Speed of sea-surface current                                     M/S                        2            0  13 M/S                       2         4".
Definition b7034 : text := " 022049 Sea-surface temperature                                          K                          2            0  15 K                         2         5".
Definition b7035 : text := " 022059 Sea-surface salinity                                             0/00                       2            0  14 0/00                      2         5".
Definition b7036 : text := " 022144 Number of 20 Hz valid points for SWH-squared                     NUMERIC                    0            0   9 NUMERIC                   0         3".
Definition b7037 : text := " 025052 Log10 of principal components normalized fit to data             NUMERIC                    4            0  15 NUMERIC                   4         5".
Definition b7038 : text := " 025076 Log10 of (temperature-radiance central wave number) for ATOVS    LOG (M-1)                  8            0  30 LOG (M-1)                 8        10".
Definition b7039 : text := " 025124 MWR L2-processing flag                                           CODE TABLE                 0            0   2 CODE TABLE                0         1".
Definition b7040 : text := " 025125 MWR L2-processing quality                                        %                          0            0   7 %                         0         3".
Definition b7041 : text := " 025180 LRM per cent                                                     %                          2            0  16 %                         2         5".
Definition b7042 : text := " 033015 Data quality-check indicator                                     CODE TABLE                 0            0   6 CODE TABLE                0         2".
Definition b7043 : text := " 033052 S band ocean retracking quality                                  FLAG TABLE                 0            0  21 FLAG TABLE                0         7".
Definition b7044 : text := " 015041 Sulphur dioxide index                                            NUMERIC                    2        -1200  14 NUMERIC                   2         4".
Definition b7045 : text := " 015045 Sulphur dioxide                                                  DU                         2        -2000  15 DU                        2         5".
Definition b7046 : text := " 015046 Volcano contamination index                                      NUMERIC                    2        -1000  11 NUMERIC                   2         4".
Definition b7047 : text := " 015049 Aerosol Angstrom wavelength exponent                             NUMERIC                    3        -2000  14 NUMERIC                   3         5".
Definition b7048 : text := " 015062 Aerosol optical thickness                                        NUMERIC                    3        -1000  14 NUMERIC                   3         5".
Definition b7049 : text := " 033085 Aerosol optical thickness quality flags                          FLAG TABLE                 0            0  18 FLAG TABLE                0         6".
Definition b7050 : text := " 033087 Extent of satellite within South Atlantic anomaly (based on clim CODE TABLE                 0            0   4 CODE TABLE                0         1".
Definition b7051 : text := " 033088 Ozone total column quality flag                                  FLAG TABLE                 0            0  18 FLAG TABLE                0         6".
Definition b7052 : text := " 001115 Identifier of the cruise or mission under which the data were co CCITTIA5                   0            0 160 CHARACTER                 0        20".
Definition b7053 : text := " 002007 Type of sensor for water level measuring instrument              CODE TABLE                 0            0   6 CODE TABLE                0         2".
Definition b7054 : text := " 002147 Method of transmission to collection centre                      CODE TABLE                 0            0   6 CODE TABLE                0         2".
Definition b7055 : text := " 003010 Method of sea/water current measurement                          CODE TABLE                 0            0   4 CODE TABLE                0         2".
Definition b7056 : text := " 003011 Method of depth calculation                                      CODE TABLE                 0            0   2 CODE TABLE                0         1".
Definition b7057 : text := " 003012 Instrument type/sensor for dissolved oxygen measurement          CODE TABLE                 0            0   4 CODE TABLE                0         2".
Definition b7058 : text := " 006029 Wave number                                                      /M                         1            0  22 /M                        1         7".
Definition b7059 : text := " 008015 Significant qualifier for sensor                                 CODE TABLE                 0            0   3 CODE TABLE                0         1".
Definition b7060 : text := " 013085 Oxidation Reduction Potential (ORP)                              V                          3            0  14 V                         3         4".
Definition b7061 : text := " 015029 Extinction coefficient                                           /M                         9            0  30 /M                        9        10".
Definition b7062 : text := " 015052 Log10 of number density of aerosol particles with diameter great LOG (M-3)                  1           60   6 LOG (M-3)                 1         3".
Definition b7063 : text := " 015053 Log10 of number density of aerosol particles with diameter great LOG (M-3)                  2          600   9 LOG (M-3)                 2         4".
Definition b7064 : text := " 015054 Log10 of number density of aerosol particles with diameter betwe LOG (M-3)                  2          550   9 LOG (M-3)                 2         4".
Definition b7065 : text := " 020054 True direction from which a phenomenon or clouds are moving or i DEGREE TRUE                0            0   9 DEGREE TRUE               0         3".
Definition b7066 : text := " 020126 Lightning rate of discharge                                      /H                         0            0  23 /H                        0         7".
Definition b7067 : text := " 022067 Instrument type for water temperature/salinity profile measureme CODE TABLE                 0            0  10 CODE TABLE                0         4".
Definition b7068 : text := " 022069 Spectral wave density                                            M2/HZ                      3            0  22 M2/HZ                     3         7".
Definition b7069 : text := " 022081 Waveband central wave number                                     /M                         5            0  13 /M                        5         4".
Definition b7070 : text := " 022188 Dissolved oxygen                                                 UMOL/KG                    3            0  19 UMOL/KG                   3         6".
Definition b7071 : text := " 008087 Corner position of observation                                   CODE TABLE                 0            0   3 CODE TABLE                0         1".
Definition b7072 : text := " 013160 Radiometer liquid content                                        KG M-2                     2         -350  10 KG M-2                    2         3".
Definition b7073 : text := " 021148 Trailing edge variation flag                                     FLAG TABLE                 0            0   9 FLAG TABLE                0         3".
Definition b7074 : text := " 021183 Specific band corrected ocean backscatter coefficient            DB                         2       -32768  16 DB                        2         5".
Definition b7075 : text := " 021184 STD specific band corrected ocean backscatter coefficient        DB                         2       -32768  16 DB                        2         5".
Definition b7076 : text := " 021185 Specific band net instrumental correction for agc                DB                         2        -2048  12 DB                        2         4".
Definition b7077 : text := " 021186 Specific band automatic gain control                             DB                         2            0  13 DB                        2         4".
Definition b7078 : text := " 021187 RMS specific band automatic gain control                         DB                         2            0   8 DB                        2         3".
Definition b7079 : text := " 021188 Number of valid points for specific band automatic gain control  NUMERIC                    0            0   7 NUMERIC                   0         3".
Definition b7080 : text := " 022130 Number of valid points for specific band                         NUMERIC                    0            0  10 NUMERIC                   0         4".
Definition b7081 : text := " 022131 RMS specific band significant wave height                        M                          3            0  16 M                         3         5".
Definition b7082 : text := " 022132 Number of valid points for specific band significant wave height NUMERIC                    0            0  10 NUMERIC                   0         4".
Definition b7083 : text := " 022133 Specific band net instrument correction for signficant wave heig M                          3        -1000  11 M                         3         4".
Definition b7084 : text := " 022134 Number of valid points for specific band backscatter             NUMERIC                    0            0  10 NUMERIC                   0         4".
Definition b7085 : text := " 022189 Specific band ocean range                                        M                          3            0  31 M                         3        10".
Definition b7086 : text := " 022190 Specific band significant wave height                            M                          3            0  16 M                         3         5".
Definition b7087 : text := " 022191 RMS of specific band ocean range                                 M                          4            0  16 M                         4         5".
Definition b7088 : text := " 025112 Band specific altimeter data quality flag                        FLAG TABLE                 0            0   9 FLAG TABLE                0         3".
Definition b7089 : text := " 025113 Band specific altimeter correction quality flag                  FLAG TABLE                 0            0   9 FLAG TABLE                0         3".
Definition b7090 : text := " 025165 Ionospheric correction from model on specific band               M                          4       -32768  16 M                         4         5".
Definition b7091 : text := " 025166 Sea state bias correction on specific band                       M                          4       -32768  16 M                         4         5".
Definition b7092 : text := " 025167 Specific band net instrumental correction                        M                          4      -120000  18 M                         4         6".
Definition b7093 : text := " 021121 SEAWINDS NOF* rain index                                         NUMERIC                    0            0   8 NUMERIC                   0         3".
Definition b7094 : text := " 021177 Corrected OCOG* backscatter coefficient                          DB                         2            0  16 DB                        2         5".
Definition b7095 : text := " 021185 Specific band net instrumental correction for AGC                DB                         2        -2048  12 DB                        2         4".
Definition b7096 : text := " 022133 Specific band net instrument correction for significant wave hei M                          3        -1000  11 M                         3         4".
Definition b7097 : text := " 022163 Number of 20Hz valid points for Ku band                          NUMERIC                    0            0  10 NUMERIC                   0         4".
Definition b7098 : text := " 025022 GHRSST* rejection flag                                           FLAG TABLE                 0            0   9 FLAG TABLE                0         3".
Definition b7099 : text := " 025180 LRM* per cent                                                    %                          2            0  16 %                         2         5".
Definition b7100 : text := " 035000 FM and regional code number                                      CODE TABLE                 0            0  10 CODE TABLE                0         3".
Definition b7101 : text := " 005063 Spacecraft roll                                                  DEG                        2            0  16 DEG                       2         5".
Definition b7102 : text := " 005064 Spacecraft pitch                                                 DEG                        2            0  16 DEG                       2         5".
Definition b7103 : text := " 005066 Spacecraft yaw                                                   DEG                        2            0  16 DEG                       2         5".
Definition b7104 : text := " 005067 Number of scan lines                                             NUMERIC                    0            0   8 NUMERIC                   0         3".
Definition b7105 : text := " 008034 Temperature/salinity measurement qualifier                       CODE TABLE                 0            0   4 CODE TABLE                0         2".
Definition b7106 : text := " 008091 Coordinates significance                                         CODE TABLE                 0            0   8 CODE TABLE                0         3".
Definition b7107 : text := " 021004 Differential reflectivity                                        DB                         2         -800  11 DB                        2         4".
Definition b7108 : text := " 021028 Differential phase                                               DEG                        1            0  12 DEG                       1         4".
Definition b7109 : text := " 021029 Cross-polarization correlation coefficient                       NUMERIC                    2         -100   8 NUMERIC                   2         3".
Definition b7110 : text := " 033089 Noise equivalent delta temperature (NEdT) quality indicators for K                          2            0  12 K                         2         4".
Definition b7111 : text := " 033090 NEdT quality indicators for cold target calibration              K                          2            0  12 K                         2         4".
Definition b7112 : text := " 033091 NEdT quality indicators for overall calibration                  K                          2            0  12 K                         2         4".
Definition b7113 : text := " 040027 Sun glint angle                                                  DEG                        2       -18000  16 DEG                       2         5".
Definition b7114 : text := " 040028 GMI quality flag                                                 CODE TABLE                 0            0   4 CODE TABLE                0         2".
Definition b7115 : text := " 001104 State/federal state identifier                                   CCITTIA5                   0            0  32 CHARACTER                 0         4".
Definition b7116 : text := " 001105 Highway designator                                               CCITTIA5                   0            0  40 CHARACTER                 0         5".
Definition b7117 : text := " 001106 Location along highway as indicated by position markers          M                         -2            0  14 M                        -2         5".
Definition b7118 : text := " 002160 Wavelength of the radar                                          CODE TABLE                 0            0   4 CODE TABLE                0         2".
Definition b7119 : text := " 003016 Position of road sensors                                         CODE TABLE                 0            0   4 CODE TABLE                0         2".
Definition b7120 : text := " 003017 Extended type of station                                         FLAG TABLE                 0            0   6 FLAG TABLE                0         2".
Definition b7121 : text := " 003018 Type of road                                                     CODE TABLE                 0            0   5 CODE TABLE                0         2".
Definition b7122 : text := " 003019 Type of construction                                             CODE TABLE                 0            0   4 CODE TABLE                0         2".
Definition b7123 : text := " 005068 Profile number                                                   NUMERIC                    0            0  16 NUMERIC                   0         5".
Definition b7124 : text := " 005069 Receiver channel                                                 CODE TABLE                 0            0   2 CODE TABLE                0         1".
Definition b7125 : text := " 005070 Observation identifier                                           NUMERIC                    0            0  30 NUMERIC                   0        10".
Definition b7126 : text := " 007071 Height (high resolution)                                         M                          3    -10000000  26 M                         3         8".
Definition b7127 : text := " 012128 Road surface temperature                                         K                          2            0  16 C                         2         5".
Definition b7128 : text := " 012129 Road sub-surface temperature                                     K                          2            0  16 C                         2         5".
Definition b7129 : text := " 013116 Water film thickness                                             M                          4            0  10 M                         3         2".
Definition b7130 : text := " 020138 Road surface condition                                           CODE TABLE                 0            0   4 CODE TABLE                0         2".
Definition b7131 : text := " 022072 Spectral peak wavelength                                         M                          0            0  13 M                         0         4".
Definition b7132 : text := " 022075 Average wavelength                                               M                          0            0  13 M                         0         4".
Definition b7133 : text := " 022102 Scaled maximum non-directional spectral wave density by frequenc M2 S                       0            0  14 M2 S                      0         5".
Definition b7134 : text := " 022103 Scaled maximum non-directional spectral wave density by wavenumb M3                         0            0  14 M3                        0         5".
Definition b7135 : text := " 022104 Scaled non-directional spectral wave density by frequency        M2 S                       0            0  14 M2 S                      0         5".
Definition b7136 : text := " 022105 Scaled non-directional spectral wave density by wavenumber       M3                         0            0  14 M3                        0         5".
Definition b7137 : text := " 022106 Scaled directional spectral wave density by frequency            M2 S RAD-1                 0            0  14 M2 S RAD-1                0         5".
Definition b7138 : text := " 022107 Scaled directional spectral wave density by wavenumber           M4                         0            0  14 M4                        0         5".
Definition b7139 : text := " 022108 Spectral wave density ratio                                      %                          0            0   7 %                         0         3".
Definition b7140 : text := " 022186 Direction from which waves are coming                            DEGREE TRUE                0            0   9 DEGREE TRUE               0         3".
Definition b7141 : text := " 025187 Confidence flag                                                  CODE TABLE                 0            0   4 CODE TABLE                0         2".
Definition b7142 : text := " 040029 Horizontal observation integration length                        M                          0            0  26 M                         0         8".
Definition b7143 : text := " 040030 Horizontal line of sight wind                                    M/S                        2       -32767  16 M/S                       2         5".
Definition b7144 : text := " 040031 Error estimate of horizontal line of sight wind                  M/S                        2            0  15 M/S                       2         5".
Definition b7145 : text := " 040032 Derivative wind to pressure                                      M S-1 PA-1                 3      -100000  18 M S-1 PA-1                3         6".
Definition b7146 : text := " 040033 Derivative wind to temperature                                   M S-1 K-1                  3      -100000  18 M S-1 K-1                 3         6".
Definition b7147 : text := " 040034 Derivative wind to backscatter ratio                             M/S                        3      -200000  19 M/S                       3         6".
Definition b7148 : text := " 040035 Satellite range                                                  M                          0       380000  18 M                         0         6".
Definition b7149 : text := " 040036 Lidar L2b classification type                                    CODE TABLE                 0            0   4 CODE TABLE                0         2".
Definition b7150 : text := " 040037 Backscatter ratio                                                NUMERIC                    3          500  20 NUMERIC                   3         7".
Definition b7151 : text := " 001114 Encrypted ship or mobile land station identifier (base64 encodin CCITTIA5                   0            0 352 CHARACTER                 0        44".
Definition b7152 : text := " 001150 Coordinate reference system                                      CODE TABLE                 0            0  16 CODE TABLE                0         5".
Definition b7153 : text := " 001151 Fixed mean sea level reference datum                             CODE TABLE                 0            0  12 CODE TABLE                0         4".
Definition b7154 : text := " 001152 Semi-major axis of rotation ellipsoid                            M                          2            0  31 M                         2        11".
Definition b7155 : text := " 001153 Semi-minor axis of rotation ellipsoid                            M                          2            0  31 M                         2        11".
Definition b7156 : text := " 002087 Parachute surface area                                           M2                         4            0  15 M2                        4         5".
Definition b7157 : text := " 003001 Surface station type                                             CODE TABLE                 0            0   5 CODE TABLE                0         2".
Definition b7158 : text := " 003003 Thermometer/hygrometer housing                                   CODE TABLE                 0            0   4 CODE TABLE                0         2".
Definition b7159 : text := " 003004 Type of screen/shelter/radiation shield                          CODE TABLE                 0            0   4 CODE TABLE                0         2".
Definition b7160 : text := " 003005 Horizontal width of screen or shield (x)                         M                          3            0  16 M                         3         5".
Definition b7161 : text := " 003006 Horizontal depth of screen or shield (y)                         M                          3            0  16 M                         3         5".
Definition b7162 : text := " 003007 Vertical height of screen or shield (z)                          M                          3            0  16 M                         3         5".
Definition b7163 : text := " 003008 Artificially ventilated screen or shield                         CODE TABLE                 0            0   3 CODE TABLE                0         1".
Definition b7164 : text := " 003009 Amount of forced ventilation at time of reading                  M/S                        1            0   9 M/S                       1         3".
Definition b7165 : text := " 003020 Material for thermometer/hygrometer housing                      CODE TABLE                 0            0   3 CODE TABLE                0         1".
Definition b7166 : text := " 003021 Hygrometer heating                                               CODE TABLE                 0            0   2 CODE TABLE                0         1".
Definition b7167 : text := " 003022 Instrument owner                                                 CODE TABLE                 0            0   3 CODE TABLE                0         1".
Definition b7168 : text := " 003023 Configuration of louvers for thermometer/hygrometer screen       CODE TABLE                 0            0   3 CODE TABLE                0         1".
Definition b7169 : text := " 003024 Psychrometric coefficient                                        K-1                        6            0  10 K-1                       6         3".
Definition b7170 : text := " 003025 Cross-track estimation area size                                 M                          0         5000  16 M                         0         5".
Definition b7171 : text := " 003026 Along-track estimation area size                                 M                          0         5000  16 M                         0         5".
Definition b7172 : text := " 005032 Y offset                                                         M                          2  -1073741824  31 M                         2        11".
Definition b7173 : text := " 005071 Stripmap identifier                                              NUMERIC                    0            0  16 NUMERIC                   0         5".
Definition b7174 : text := " 005072 Number of spectra in range direction                             NUMERIC                    0            0   8 NUMERIC                   0         3".
Definition b7175 : text := " 005073 Number of spectra in azimuthal direction                         NUMERIC                    0            0   8 NUMERIC                   0         3".
Definition b7176 : text := " 005074 Index in range direction                                         NUMERIC                    0            0   8 NUMERIC                   0         3".
Definition b7177 : text := " 005075 Index in azimuthal direction                                     NUMERIC                    0            0   8 NUMERIC                   0         3".
Definition b7178 : text := " 006032 X offset                                                         M                          2  -1073741824  31 M                         2        11".
Definition b7179 : text := " 008088 Map significance                                                 CODE TABLE                 0            0   6 CODE TABLE                0         2".
Definition b7180 : text := " 010038 Maximum height of deck cargo above summer load line              M                          0            0   6 M                         0         2".
Definition b7181 : text := " 010039 Departure of reference level (summer maximum load line) from act M                          0          -32   6 M                         0         3".
Definition b7182 : text := " 011007 Relative wind direction (in degrees off bow)                     DEG                        0            0   9 DEG                       0         3".
Definition b7183 : text := " 011008 Relative wind speed                                              M/S                        1            0  12 M/S                       1         4".
Definition b7184 : text := " 011104 True heading of aircraft, ship or other mobile platform          DEGREE TRUE                0            0   9 DEGREE TRUE               0         3".
Definition b7185 : text := " 015028 Mole fraction of atmospheric constituent/pollutant in dry air    ‰                          5            0  16 ‰                         5         5".
Definition b7186 : text := " 020129 Lightning density (stroke, flash or event)                       M-2                        6            0  10 M-2                       6         4".
Definition b7187 : text := " 025185 Encryption method                                                CODE TABLE                 0            0   8 CODE TABLE                0         3".
Definition b7188 : text := " 025186 Encryption key version                                           CCITTIA5                   0            0  96 CHARACTER                 0        12".
Definition b7189 : text := " 025188 Method for reducing pressure to sea level                        CODE TABLE                 0            0   5 CODE TABLE                0         2".
Definition b7190 : text := " 025189 Range cut-off wavelength                                         M                          0            1   9 M                         0         3".
Definition b7191 : text := " 029014 Optional list of parameters for an external map projection libra CCITTIA5                   0            0 504 CHARACTER                 0        63".
Definition b7192 : text := " 040039 Single look complex image intensity                              NUMERIC                    0          -25   5 NUMERIC                   0         3".
Definition b7193 : text := " 040040 Single look complex image skewness                               NUMERIC                    2            1  13 NUMERIC                   0         4".
Definition b7194 : text := " 040041 Single look complex image kurtosis                               NUMERIC                    2            1  13 NUMERIC                   0         4".
Definition b7195 : text := " 040042 Single look complex image  variance                              NUMERIC                    2            1  13 NUMERIC                   0         4".
Definition b7196 : text := " 041001 pCO2                                                             PA                         3            0  18 PA                        3         6".
Definition b7197 : text := " 041002 Fluorescence                                                     KG L-1                    12            0  16 KG L-1                   12         5".
Definition b7198 : text := " 041003 Dissolved nitrates                                               ΜMOL KG-1                  3            0  17 ΜMOL KG-1                 3         5".
Definition b7199 : text := " 041005 Turbidity                                                        NTU                        2            0  12 NTU                       2         4".
Definition b7200 : text := " 042001 Dominant swell wave direction of spectral partition              DEG                        0            0   9 DEG                       0         3".
Definition b7201 : text := " 042002 Significant swell wave height of spectral partition              M                          1            0   9 M                         1         3".
Definition b7202 : text := " 042003 Dominant swell wavelength of spectral partition                  M                          2          100  17 M                         2         6".
Definition b7203 : text := " 042004 Confidence of inversion for each partition of swell wave spectra CODE TABLE                 0            0   4 CODE TABLE                0         2".
Definition b7204 : text := " 042005 Ambiguity removal factor for swell wave partition                NUMERIC                    5      -100000  18 NUMERIC                   5         6".
Definition b7205 : text := " 042006 Wave age                                                         NUMERIC                    2            1   8 NUMERIC                   2         3".
Definition b7206 : text := " 042007 Shortest ocean wavelength on spectral resolution                 M                          2            0  16 M                         2         5".
Definition b7207 : text := " 042008 Nonlinear inverse spectral width                                 M                          2            0  16 M                         2         5".
Definition b7208 : text := " 042009 Bin partition reference                                          NUMERIC                    0            0   8 NUMERIC                   0         3".
Definition b7209 : text := " 042010 Partition number                                                 NUMERIC                    0            1   4 NUMERIC                   0         2".
Definition b7210 : text := " 001125 WIGOS identifier series                                          NUMERIC                    0            0   4 NUMERIC                   0         2".
Definition b7211 : text := " 001126 WIGOS issuer of identifier                                       NUMERIC                    0            0  16 NUMERIC                   0         5".
Definition b7212 : text := " 001127 WIGOS issue number                                               NUMERIC                    0            0  16 NUMERIC                   0         5".
Definition b7213 : text := " 001128 WIGOS local identifier (character)                               CCITTIA5                   0            0 128 CHARACTER                 0        16".
Definition b7214 : text := " 001151 Fixed mean sea-level reference datum                             CODE TABLE                 0            0  12 CODE TABLE                0         4".
Definition b7215 : text := " 002088 Volume of gas used in balloon                                    M3                         3            0  13 M3                        3         4".
Definition b7216 : text := " 003027 Type of flight rig                                               CODE TABLE                 0            0   4 CODE TABLE                0         2".
Definition b7217 : text := " 008037 Baseline check significance                                      CODE TABLE                 0            0   5 CODE TABLE                0         2".
Definition b7218 : text := " 008038 Instrument data significance                                     CODE TABLE                 0            0   8 CODE TABLE                0         3".
Definition b7219 : text := " 008092 Measurement uncertainty expression                               CODE TABLE                 0            0   5 CODE TABLE                0         2".
Definition b7220 : text := " 008093 Measurement uncertainty significance                             CODE TABLE                 0            0   5 CODE TABLE                0         2".
Definition b7221 : text := " 010071 Vertical resolution                                              M                          0            0  14 M                         0         5".
Definition b7222 : text := " 011110 Uncertainty in u-component                                       M/S                        1        -4096  13 M/S                       1         4".
Definition b7223 : text := " 011111 Uncertainty in v-component                                       M/S                        1        -4096  13 M/S                       1         4".
Definition b7224 : text := " 011112 Uncertainty in w-component                                       M/S                        2        -4096  13 M/S                       2         4".
Definition b7225 : text := " 012008 Uncertainty in virtual temperature                               K                          1            0  12 C                         1         4".
Definition b7226 : text := " 012129 Road subsurface temperature                                      K                          2            0  16 C                         2         5".
Definition b7227 : text := " 015063 Attenuated backscatter                                           M-1 SR-1                   8            0  20 M-1 SR-1                  8         7".
Definition b7228 : text := " 015064 Uncertainty in attenuated backscatter                            M-1 SR-1                   8            0  20 M-1 SR-1                  8         7".
Definition b7229 : text := " 015065 Particle backscatter coefficient                                 M-1 SR-1                   8            0  20 M-1 SR-1                  8         7".
Definition b7230 : text := " 015066 Uncertainty in particle backscatter coefficient                  M-1 SR-1                   8            0  20 M-1 SR-1                  8         7".
Definition b7231 : text := " 015067 Particle extinction coefficient                                  M-1                        8            0  20 M-1                       8         7".
Definition b7232 : text := " 015068 Uncertainty in particle extinction coefficient                   M-1                        8            0  20 M-1                       8         7".
Definition b7233 : text := " 015069 Particle LIDAR ratio                                             SR                         2            0  14 SR                        2         5".
Definition b7234 : text := " 015070 Uncertainty in LIDAR ratio                                       SR                         2            0  14 SR                        2         5".
Definition b7235 : text := " 015071 Particle depolarization ratio                                    %                          2            0  14 %                         2         5".
Definition b7236 : text := " 015072 Uncertainty in depolarization ratio                              %                          2            0  14 %                         2         5".
Definition b7237 : text := " 022103 Scaled maximum non-directional spectral wave density by wave num M3                         0            0  14 M3                        0         5".
Definition b7238 : text := " 022105 Scaled non-directional spectral wave density by wave number      M3                         0            0  14 M3                        0         5".
Definition b7239 : text := " 022107 Scaled directional spectral wave density by wave number          M4                         0            0  14 M4                        0         5".
Definition b7240 : text := " 027079 Horizontal width of sampled volume                               M                          0            0  18 M                         0         6".
Definition b7241 : text := " 040042 Single look complex image variance                               NUMERIC                    2            1  13 NUMERIC                   0         4".
Definition b7242 : text := " 002008 Type of offshore platform                                        CODE TABLE                 0            0   4 CODE TABLE                0         2".
Definition b7243 : text := " 002161 Wind processing method                                           FLAG TABLE                 0            0  16 FLAG TABLE                0         6".
Definition b7244 : text := " 002162 Extended height assignment method                                CODE TABLE                 0            0   6 CODE TABLE                0         2".
Definition b7245 : text := " 008070 Vertical sounding product qualifier                              CODE TABLE                 0            0   4 CODE TABLE                0         2".
Definition b7246 : text := " 011113 Tracking correlation of vector                                   NUMERIC                    3        -1000  12 NUMERIC                   3         4".
Definition b7247 : text := " 013109 Ice/liquid water path                                            KG M-2                     3            0  10 KG M-2                    3         4".
Definition b7248 : text := " 025077 Bandwidth correction coefficient 1                               NUMERIC                    5      -100000  18 NUMERIC                   5         7".
Definition b7249 : text := " 025078 Bandwidth correction coefficient 2                               NUMERIC                    5            0  17 NUMERIC                   5         6".
Definition b7250 : text := " 025148 Coefficient of variation                                         NUMERIC                    2       -10000  15 NUMERIC                   2         5".
Definition b7251 : text := " 025149 Optimal estimation cost                                          NUMERIC                    0            0   8 NUMERIC                   0         3".
Definition b7252 : text := " 033066 AMV quality flag                                                 FLAG TABLE                 0            0  24 FLAG TABLE                0         8".
Definition b7253 : text := " 040038 Cloud particle size                                              M                          7            0  28 M                         7         6".
Definition b7254 : text := " 013162 Cloud liquid water                                               KG M-2                     2            0   8 KG M-2                    2         3".
Definition b7255 : text := " 015069 Particle lidar ratio                                             SR                         2            0  14 SR                        2         5".
Definition b7256 : text := " 015070 Uncertainty in lidar ratio                                       SR                         2            0  14 SR                        2         5".
Definition b7257 : text := " 001044 Standard generating application                                  CODE TABLE                 0            0   8 CODE TABLE                0         3".
Definition b7258 : text := " 003028 Method Of Snow Water Equivalent Measurement                      CODE TABLE                 0            0   6 CODE TABLE                0         2".
Definition b7259 : text := " 010103 Mean dynamic topography accuracy                                 M                          3      -131072  18 M                         3         6".
Definition b7260 : text := " 013163 Snow Water Equivalent                                            KG M-2                     0            0  16 KG M-2                    0         5".
Definition b7261 : text := " 013164 Sea ice freeboard                                                M                          3      -131072  18 M                         3         6".
Definition b7262 : text := " 014046 Scaled radiance                                                  W M-2 SR-1 M               0        -5000  16 W M-2 SR-1 M              0         5".
Definition b7263 : text := " 025190 Altimeter echo processing mode                                   CODE TABLE                 0            0   8 CODE TABLE                0         3".
Definition b7264 : text := " 025191 Altimeter tracking mode                                          CODE TABLE                 0            0   8 CODE TABLE                0         3".
Definition b7265 : text := " 033092 Band specific ocean quality flag                                 FLAG TABLE                 0            0   9 FLAG TABLE                0         3".
Definition b7266 : text := " 040043 Satellite manoeuvre indicator                                    CODE TABLE                 0            0   3 CODE TABLE                0         1".
Definition b7267 : text := " 040044 Dust index                                                       NUMERIC                    1            0   8 NUMERIC                   1         3".
Definition b7268 : text := " 040045 Cloud formation and height assignment                            FLAG TABLE                 0            0   5 FLAG TABLE                0         2".
Definition b7269 : text := " 040046 Cloudiness summary                                               CODE TABLE                 0            0   3 CODE TABLE                0         1".
Definition b7270 : text := " 040047 Validation flag for IASI or IASI-NG level 1 product              CODE TABLE                 0            0   3 CODE TABLE                0         1".
Definition b7271 : text := " 040048 Validation flag of AMSU-A level 1 data flow                      CODE TABLE                 0            0   3 CODE TABLE                0         1".
Definition b7272 : text := " 040049 Cloud tests executed and results                                 FLAG TABLE                 0            0  16 FLAG TABLE                0         5".
Definition b7273 : text := " 040050 Retrieval initialisation                                         FLAG TABLE                 0            0   8 FLAG TABLE                0         3".
Definition b7274 : text := " 040051 Convergence of the iterative retrieval                           CODE TABLE                 0            0   3 CODE TABLE                0         1".
Definition b7275 : text := " 040052 Indication of super-adiabatic and super-saturation in final retr FLAG TABLE                 0            0   8 FLAG TABLE                0         3".
Definition b7276 : text := " 040053 Number of iterations used for retrieval                          NUMERIC                    0            0   8 NUMERIC                   0         3".
Definition b7277 : text := " 040054 Potential processing and inputs errors                           FLAG TABLE                 0            0  13 FLAG TABLE                0         4".
Definition b7278 : text := " 040055 Diagnostics on the retrieval                                     FLAG TABLE                 0            0  21 FLAG TABLE                0         7".
Definition b7279 : text := " 040056 General retrieval quality                                        CODE TABLE                 0            0   3 CODE TABLE                0         1".
Definition b7280 : text := " 040057 IASI level 2 retrieval flags                                     FLAG TABLE                 0            0  31 FLAG TABLE                0        10".
Definition b7281 : text := " 040058 Number of vectors describing the characterization matrices       NUMERIC                    0            0   8 NUMERIC                   0         3".
Definition b7282 : text := " 040059 Number of layers actually retrieved                              NUMERIC                    0            0   8 NUMERIC                   0         3".
Definition b7283 : text := " 040060 Number of profiles retrieved in scanline                         NUMERIC                    0            0   8 NUMERIC                   0         3".
Definition b7284 : text := " 040061 Air partial columns on each retrieved layer                      MOL CM-2                   3            0  16 MOL CM-2                  3         5".
Definition b7285 : text := " 040062 A-priori partial columns on each retrieved layer                 MOL CM-2                  10            0  16 MOL CM-2                 10         5".
Definition b7286 : text := " 040063 Scaling vector multiplying the a priori CO vector in order to de NUMERIC                    5            0  26 NUMERIC                   5         8".
Definition b7287 : text := " 040064 Main eigenvalues of the sensitivity matrix                       NUMERIC                    6            0  31 NUMERIC                   6        10".
Definition b7288 : text := " 040065 Main eigenvectors of the sensitivity matrix                      NUMERIC                    6  -1000000000  31 NUMERIC                   6        10".
Definition b7289 : text := " 040066 Quality indicator for atmospheric water vapour                   NUMERIC                    1            0   8 NUMERIC                   1         3".
Definition b7290 : text := " 040067 Quality indicator for atmospheric temperature                    NUMERIC                    1            0   8 NUMERIC                   1         3".
Definition b7291 : text := " 040068 General retrieval quality flag for SO2                           CODE TABLE                 0            0   4 CODE TABLE                0         2".
Definition b7292 : text := " 040069 PWLR estimated retrieval error for surface air temperature       K                          4     -1000000  21 K                         4         7".
Definition b7293 : text := " 040070 PWLR estimated retrieval error of surface dewpoint               K                          4     -1000000  21 K                         4         7".
Definition b7294 : text := " 040071 Retrieval error covariance matrix for ozone in principal compone NUMERIC                    4     -1000000  21 NUMERIC                   4         7".
Definition b7295 : text := " 040072 PWLR estimated retrieval quality indicator of atmospheric ozone  NUMERIC                    1            0   8 NUMERIC                   1         3".
Definition b7296 : text := " 040073 PWLR estimated retrieval error of surface skin temperature       K                          1            0   8 K                         1         3".
Definition b7297 : text := " 000026 BIT NUMBER                                                       CCITTIA5                   0            0  48 CHARACTER                 0         6".
Definition b7298 : text := " 001012 DIRECTION OF MOTION OF MOVING OBSERVING PLATFORM                 DEG                        0            0   9 DEG                       0         3".
Definition b7299 : text := " 001024 WIND SPEED SOURCE                                                CODE TABLE 1024            0            0   5 CODE TABLE 1024           0         2".
Definition b7300 : text := " 001031 IDENTIFICATION OF ORIGINATING/GENERATING CENTRE                  CODE TABLE 1031            0            0  16 CODE TABLE 1031           0         5".
Definition b7301 : text := " 001032 GENERATING APPLICATION                                           CODE TABLE DEFINED BY OR   0            0   8 CODE TABLE 1032           0         3".
Definition b7302 : text := " 001033 IDENTIFICATION OF ORIGINATING/GENERATING CENTRE                  COMMON CODE TABLE C-1      0            0   8 COMMON CODE TABLE C-1     0         3".
Definition b7303 : text := " 001034 IDENTIFICATION OF ORIGINATING/GENERATING SUB-CENTRE              COMMON CODE TABLE C-12     0            0   8 COMMON CODE TABLE C-12    0         3".
Definition b7304 : text := " 001038 SOURCE OF SEA ICE FRACTION                                       CODE TABLE 1038            0            0   5 CODE TABLE 1038           0         2".
Definition b7305 : text := " 001040 PROCESSING CENTRE ID CODE                                        CCITTIA5                   0            0  48 CHARACTER                 0         6".
Definition b7306 : text := " 001044 STANDARD GENERATING APPLICATION                                  CODE TABLE 1044            0            0   8 CODE TABLE 1044           0         3".
Definition b7307 : text := " 001079 UNIQUE IDENTIFIER FOR THE PROFILE                                CCITTIA5                   0            0  64 CHARACTER                 0         8".
Definition b7308 : text := " 001103 IMO NUMBER. UNIQUE LLOYD'S REGISTER                              NUMERIC                    0            0  24 NUMERIC                   0         7".
Definition b7309 : text := " 001104 STATE/FEDERAL STATE IDENTIFIER                                   CCITTIA5                   0            0  32 CHARACTER                 0         4".
Definition b7310 : text := " 001105 HIGHWAY DESIGNATOR                                               CCITTIA5                   0            0  40 CHARACTER                 0         5".
Definition b7311 : text := " 001106 LOCATION ALONG HIGHWAY AS INDICATED BY POSITION MARKERS          M                         -2            0  14 M                        -2         5".
Definition b7312 : text := " 001114 ENCRYPTED SHIP OR MOBILE LAND STATION IDENTIFIER (BASE64 ENCODIN CCITTIA5                   0            0 352 CHARACTER                 0        44".
Definition b7313 : text := " 001115 IDENTIFIER OF THE CRUISE OR MISSION UNDER WHICH THE DATA WERE CO CCITTIA5                   0            0 160 CHARACTER                 0        20".
Definition b7314 : text := " 001125 WIGOS IDENTIFIER SERIES                                          NUMERIC                    0            0   4 NUMERIC                   0         2".
Definition b7315 : text := " 001126 WIGOS ISSUER OF IDENTIFIER                                       NUMERIC                    0            0  16 NUMERIC                   0         5".
Definition b7316 : text := " 001127 WIGOS ISSUE NUMBER                                               NUMERIC                    0            0  16 NUMERIC                   0         5".
Definition b7317 : text := " 001128 WIGOS LOCAL IDENTIFIER (CHARACTER)                               CCITTIA5                   0            0 128 CHARACTER                 0        16".
Definition b7318 : text := " 001150 COORDINATE REFERENCE SYSTEM                                      CODE TABLE 1150            0            0  16 CODE TABLE 1150           0         5".
Definition b7319 : text := " 001151 FIXED MEAN SEA-LEVEL REFERENCE DATUM                             CODE TABLE 1151            0            0  12 CODE TABLE 1151           0         4".
Definition b7320 : text := " 001152 SEMI-MAJOR AXIS OF ROTATION ELLIPSOID                            M                          2            0  31 M                         2        11".
Definition b7321 : text := " 001153 SEMI-MINOR AXIS OF ROTATION ELLIPSOID                            M                          2            0  31 M                         2        11".
Definition b7322 : text := " 002007 TYPE OF SENSOR FOR WATER LEVEL MEASURING INSTRUMENT              CODE TABLE 2007            0            0   6 CODE TABLE 2007           0         2".
Definition b7323 : text := " 002008 TYPE OF OFFSHORE PLATFORM                                        CODE TABLE 2008            0            0   4 CODE TABLE 2008           0         2".
Definition b7324 : text := " 002017 CORRECTION ALGORITHMS FOR HUMIDITY MEASUREMENTS                  CODE TABLE 2017            0            0   5 CODE TABLE 2017           0         2".
Definition b7325 : text := " 002023 SATELLITE-DERIVED WIND COMPUTATION METHOD                        CODE TABLE 2023            0            0   4 CODE TABLE 2023           0         2".
Definition b7326 : text := " 002042 INDICATOR FOR SEA-SURFACE CURRENT SPEED                          CODE TABLE 2042            0            0   2 CODE TABLE 2042           0         1".
Definition b7327 : text := " 002047 DEEP-OCEAN TSUNAMETER TYPE                                       CODE TABLE 2047            0            0   7 CODE TABLE 2047           0         2".
Definition b7328 : text := " 002057 ORIGIN OF FIRST-GUESS INFORMATION FOR GOES-I/M SOUNDINGS         CODE TABLE 2057            0            0   4 CODE TABLE 2057           0         2".
Definition b7329 : text := " 002058 VALID TIMES OF FIRST-GUESS INFORMATION FOR GOES-I/M SOUNDINGS    CODE TABLE 2058            0            0   4 CODE TABLE 2058           0         2".
Definition b7330 : text := " 002067 RADIOSONDE OPERATING FREQUENCY                                   HZ                        -5            0  15 HZ                       -5         5".
Definition b7331 : text := " 002087 PARACHUTE SURFACE AREA                                           M2                         4            0  15 M2                        4         5".
Definition b7332 : text := " 002088 VOLUME OF GAS USED IN BALLOON                                    M3                         3            0  13 M3                        3         4".
Definition b7333 : text := " 002092 OZONE PROFILE COMPUTATION METHOD                                 CODE TABLE 2092            0            0   3 CODE TABLE 2092           0         1".
Definition b7334 : text := " 002099 POLARIZATION                                                     CODE TABLE 2099            0            0   3 CODE TABLE 2099           0         1".
Definition b7335 : text := " 002100 RADAR CONSTANT                                                   DB                         1            0  12 DB                        1         4".
Definition b7336 : text := " 002104 ANTENNA POLARIZATION                                             CODE TABLE 2104            0            0   4 CODE TABLE 2104           0         2".
Definition b7337 : text := " 002105 MAXIMUM ANTENNA GAIN                                             DB                         0            0   6 DB                        0         2".
Definition b7338 : text := " 002107 SIDELOBE SUPPRESSION                                             DB                         0            0   6 DB                        0         2".
Definition b7339 : text := " 002108 CROSSPOL DISCRIMINATION (ON AXIS)                                DB                         0            0   6 DB                        0         2".
Definition b7340 : text := " 002120 OCEAN WAVE FREQUENCY                                             HZ                         3            0  10 HZ                        3         4".
Definition b7341 : text := " 002121 MEAN FREQUENCY                                                   HZ                        -8            0   7 HZ                       -8         3".
Definition b7342 : text := " 002122 FREQUENCY AGILITY RANGE                                          HZ                        -6         -128   8 HZ                       -6         3".
Definition b7343 : text := " 002125 PULSE REPETITION FREQUENCY                                       HZ                        -1            0   8 HZ                       -1         3".
Definition b7344 : text := " 002127 RECEIVER INTERMEDIATE FREQUENCY                                  HZ                        -6            0   7 HZ                       -6         3".
Definition b7345 : text := " 002128 INTERMEDIATE FREQUENCY BANDWIDTH                                 HZ                        -5            0   6 HZ                       -5         2".
Definition b7346 : text := " 002129 MINIMUM DETECTABLE SIGNAL                                        DB                         0         -150   5 DB                        0         3".
Definition b7347 : text := " 002130 DYNAMIC RANGE                                                    DB                         0            0   7 DB                        0         3".
Definition b7348 : text := " 002139 SIRAL INSTRUMENT CONFIGURATION                                   CODE TABLE 2139            0            0   2 CODE TABLE 2139           0         1".
Definition b7349 : text := " 002144 LIGHT SOURCE TYPE FOR BREWER SPECTROPHOTOMETER                   CODE TABLE 2144            0            0   4 CODE TABLE 2144           0         2".
Definition b7350 : text := " 002145 WAVELENGTH SETTING FOR DOBSON INSTRUMENTS                        CODE TABLE 2145            0            0   4 CODE TABLE 2145           0         2".
Definition b7351 : text := " 002147 METHOD OF TRANSMISSION TO COLLECTION CENTRE                      CODE TABLE 2147            0            0   6 CODE TABLE 2147           0         2".
Definition b7352 : text := " 002152 SATELLITE INSTRUMENT USED IN DATA PROCESSING                     FLAG TABLE 2152            0            0  31 FLAG TABLE 2152           0        10".
Definition b7353 : text := " 002153 SATELLITE CHANNEL CENTRE FREQUENCY                               HZ                        -8            0  26 HZ                       -8         8".
Definition b7354 : text := " 002154 SATELLITE CHANNEL BAND WIDTH                                     HZ                        -8            0  26 HZ                       -8         8".
Definition b7355 : text := " 002160 WAVELENGTH OF THE RADAR                                          CODE TABLE 2160            0            0   4 CODE TABLE 2160           0         2".
Definition b7356 : text := " 002161 WIND PROCESSING METHOD                                           FLAG TABLE 2161            0            0  16 FLAG TABLE 2161           0         6".
Definition b7357 : text := " 002162 EXTENDED HEIGHT ASSIGNMENT METHOD                                CODE TABLE 2162            0            0   6 CODE TABLE 2162           0         2".
Definition b7358 : text := " 002165 RADIANCE TYPE FLAGS                                              FLAG TABLE 2165            0            0  15 FLAG TABLE 2165           0         5".
Definition b7359 : text := " 002170 AIRCRAFT HUMIDITY SENSORS                                        CODE TABLE 2170            0            0   6 CODE TABLE 2170           0         2".
Definition b7360 : text := " 002171 INSTRUMENT SERIAL NUMBER FOR WATER TEMPERATURE PROFILE MEASUREME CCITTIA5                   0            0  64 CHARACTER                 0         8".
Definition b7361 : text := " 002191 GEOPOTENTIAL HEIGHT CALCULATION                                  CODE TABLE 2191            0            0   4 CODE TABLE 2191           0         2".
Definition b7362 : text := " 003001 SURFACE STATION TYPE                                             CODE TABLE 3001            0            0   5 CODE TABLE 3001           0         2".
Definition b7363 : text := " 003003 THERMOMETER/HYGROMETER HOUSING                                   CODE TABLE 3003            0            0   4 CODE TABLE 3003           0         2".
Definition b7364 : text := " 003004 TYPE OF SCREEN/SHELTER/RADIATION SHIELD                          CODE TABLE 3004            0            0   4 CODE TABLE 3004           0         2".
Definition b7365 : text := " 003005 HORIZONTAL WIDTH OF SCREEN OR SHIELD (X)                         M                          3            0  16 M                         3         5".
Definition b7366 : text := " 003006 HORIZONTAL DEPTH OF SCREEN OR SHIELD (Y)                         M                          3            0  16 M                         3         5".
Definition b7367 : text := " 003007 VERTICAL HEIGHT OF SCREEN OR SHIELD (Z)                          M                          3            0  16 M                         3         5".
Definition b7368 : text := " 003008 ARTIFICIALLY VENTILATED SCREEN OR SHIELD                         CODE TABLE 3008            0            0   3 CODE TABLE 3008           0         1".
Definition b7369 : text := " 003009 AMOUNT OF FORCED VENTILATION AT TIME OF READING                  M/S                        1            0   9 M/S                       1         3".
Definition b7370 : text := " 003010 METHOD OF SEA/WATER CURRENT MEASUREMENT                          CODE TABLE 3010            0            0   4 CODE TABLE 3010           0         2".
Definition b7371 : text := " 003011 METHOD OF DEPTH CALCULATION                                      CODE TABLE 3011            0            0   2 CODE TABLE 3011           0         1".
Definition b7372 : text := " 003012 INSTRUMENT TYPE/SENSOR FOR DISSOLVED OXYGEN MEASUREMENT          CODE TABLE 3012            0            0   4 CODE TABLE 3012           0         2".
Definition b7373 : text := " 003016 POSITION OF ROAD SENSORS                                         CODE TABLE 3016            0            0   4 CODE TABLE 3016           0         2".
Definition b7374 : text := " 003017 EXTENDED TYPE OF STATION                                         FLAG TABLE 3017            0            0   6 FLAG TABLE 3017           0         2".
Definition b7375 : text := " 003018 TYPE OF ROAD                                                     CODE TABLE 3018            0            0   5 CODE TABLE 3018           0         2".
Definition b7376 : text := " 003019 TYPE OF CONSTRUCTION                                             CODE TABLE 3019            0            0   4 CODE TABLE 3019           0         2".
Definition b7377 : text := " 003020 MATERIAL FOR THERMOMETER/HYGROMETER HOUSING                      CODE TABLE 3020            0            0   3 CODE TABLE 3020           0         1".
Definition b7378 : text := " 003021 HYGROMETER HEATING                                               CODE TABLE 3021            0            0   2 CODE TABLE 3021           0         1".
Definition b7379 : text := " 003022 INSTRUMENT OWNER                                                 CODE TABLE 3022            0            0   3 CODE TABLE 3022           0         1".
Definition b7380 : text := " 003023 CONFIGURATION OF LOUVERS FOR THERMOMETER/HYGROMETER SCREEN       CODE TABLE 3023            0            0   3 CODE TABLE 3023           0         1".
Definition b7381 : text := " 003024 PSYCHROMETRIC COEFFICIENT                                        K-1                        6            0  10 K-1                       6         3".
Definition b7382 : text := " 003025 CROSS-TRACK ESTIMATION AREA SIZE                                 M                          0         5000  16 M                         0         5".
Definition b7383 : text := " 003026 ALONG-TRACK ESTIMATION AREA SIZE                                 M                          0         5000  16 M                         0         5".
Definition b7384 : text := " 003027 TYPE OF FLIGHT RIG                                               CODE TABLE 3027            0            0   4 CODE TABLE 3027           0         2".
Definition b7385 : text := " 003028 METHOD OF SNOW WATER EQUIVALENT MEASUREMENT                      CODE TABLE 3028            0            0   6 CODE TABLE 3028           0         2".
Definition b7386 : text := " 005021 BEARING OR AZIMUTH                                               DEG                        2            0  16 DEG                       2         5".
Definition b7387 : text := " 005022 SOLAR AZIMUTH                                                    DEG                        2            0  16 DEG                       2         5".
Definition b7388 : text := " 005032 Y OFFSET                                                         M                          2  -1073741824  31 M                         2        11".
Definition b7389 : text := " 005063 SPACECRAFT ROLL                                                  DEG                        2            0  16 DEG                       2         5".
Definition b7390 : text := " 005064 SPACECRAFT PITCH                                                 DEG                        2            0  16 DEG                       2         5".
Definition b7391 : text := " 005066 SPACECRAFT YAW                                                   DEG                        2            0  16 DEG                       2         5".
Definition b7392 : text := " 005067 NUMBER OF SCAN LINES                                             NUMERIC                    0            0   8 NUMERIC                   0         3".
Definition b7393 : text := " 005068 PROFILE NUMBER                                                   NUMERIC                    0            0  16 NUMERIC                   0         5".
Definition b7394 : text := " 005069 RECEIVER CHANNEL                                                 CODE TABLE 5069            0            0   2 CODE TABLE 5069           0         1".
Definition b7395 : text := " 005070 OBSERVATION IDENTIFIER                                           NUMERIC                    0            0  30 NUMERIC                   0        10".
Definition b7396 : text := " 005071 STRIPMAP IDENTIFIER                                              NUMERIC                    0            0  16 NUMERIC                   0         5".
Definition b7397 : text := " 005072 NUMBER OF SPECTRA IN RANGE DIRECTION                             NUMERIC                    0            0   8 NUMERIC                   0         3".
Definition b7398 : text := " 005073 NUMBER OF SPECTRA IN AZIMUTHAL DIRECTION                         NUMERIC                    0            0   8 NUMERIC                   0         3".
Definition b7399 : text := " 005074 INDEX IN RANGE DIRECTION                                         NUMERIC                    0            0   8 NUMERIC                   0         3".
Definition b7400 : text := " 005075 INDEX IN AZIMUTHAL DIRECTION                                     NUMERIC                    0            0   8 NUMERIC                   0         3".
Definition b7401 : text := " 006029 WAVE NUMBER                                                      /M                         1            0  22 /M                        1         7".
Definition b7402 : text := " 006032 X OFFSET                                                         M                          2  -1073741824  31 M                         2        11".
Definition b7403 : text := " 007003 GEOPOTENTIAL                                                     M2 S-2                    -1         -400  17 M2 S-2                   -1         6".
Definition b7404 : text := " 007008 GEOPOTENTIAL                                                     M2 S-2                     0       -10000  20 M2 S-2                    0         7".
Definition b7405 : text := " 007071 HEIGHT (HIGH RESOLUTION)                                         M                          3    -10000000  26 M                         3         8".
Definition b7406 : text := " 008015 SIGNIFICANT QUALIFIER FOR SENSOR                                 CODE TABLE 8015            0            0   3 CODE TABLE 8015           0         1".
Definition b7407 : text := " 008023 FIRST-ORDER STATISTICS                                           CODE TABLE 8023            0            0   6 CODE TABLE 8023           0         2".
Definition b7408 : text := " 008029 SURFACE TYPE                                                     CODE TABLE 8029            0            0   8 CODE TABLE 8029           0         3".
Definition b7409 : text := " 008032 STATUS OF OPERATION                                              CODE TABLE 8032            0            0   4 CODE TABLE 8032           0         2".
Definition b7410 : text := " 008034 TEMPERATURE/SALINITY MEASUREMENT QUALIFIER                       CODE TABLE 8034            0            0   4 CODE TABLE 8034           0         2".
Definition b7411 : text := " 008037 BASELINE CHECK SIGNIFICANCE                                      CODE TABLE 8037            0            0   5 CODE TABLE 8037           0         2".
Definition b7412 : text := " 008038 INSTRUMENT DATA SIGNIFICANCE                                     CODE TABLE 8038            0            0   8 CODE TABLE 8038           0         3".
Definition b7413 : text := " 008039 TIME SIGNIFICANCE (AVIATION FORECAST)                            CODE TABLE 8039            0            0   6 CODE TABLE 8039           0         2".
Definition b7414 : text := " 008043 ATMOSPHERIC CHEMICAL OR PHYSICAL CONSTITUENT TYPE                CODE TABLE 8043            0            0   8 CODE TABLE 8043           0         3".
Definition b7415 : text := " 008046 ATMOSPHERIC CHEMICAL OR PHYSICAL CONSTITUENT TYPE                COMMON CODE TABLE C-14     0            0  16 COMMON CODE TABLE C-14    0         5".
Definition b7416 : text := " 008054 QUALIFIER FOR WIND SPEED OR WIND GUSTS                           CODE TABLE 8054            0            0   3 CODE TABLE 8054           0         1".
Definition b7417 : text := " 008070 VERTICAL SOUNDING PRODUCT QUALIFIER                              CODE TABLE 8070            0            0   4 CODE TABLE 8070           0         2".
Definition b7418 : text := " 008082 MODIFICATION OF SENSOR HEIGHT TO ANOTHER VALUE                   CODE TABLE 8082            0            0   3 CODE TABLE 8082           0         1".
Definition b7419 : text := " 008086 VERTICAL SIGNIFICANCE FOR NWP                                    FLAG TABLE 8086            0            0  12 FLAG TABLE 8086           0         4".
Definition b7420 : text := " 008087 CORNER POSITION OF OBSERVATION                                   CODE TABLE 8087            0            0   3 CODE TABLE 8087           0         1".
Definition b7421 : text := " 008088 MAP SIGNIFICANCE                                                 CODE TABLE 8088            0            0   6 CODE TABLE 8088           0         2".
Definition b7422 : text := " 008091 COORDINATES SIGNIFICANCE                                         CODE TABLE 8091            0            0   8 CODE TABLE 8091           0         3".
Definition b7423 : text := " 008092 MEASUREMENT UNCERTAINTY EXPRESSION                               CODE TABLE 8092            0            0   5 CODE TABLE 8092           0         2".
Definition b7424 : text := " 008093 MEASUREMENT UNCERTAINTY SIGNIFICANCE                             CODE TABLE 8093            0            0   5 CODE TABLE 8093           0         2".
Definition b7425 : text := " 010003 GEOPOTENTIAL                                                     M2 S-2                    -1         -400  17 M2 S-2                   -1         6".
Definition b7426 : text := " 010008 GEOPOTENTIAL                                                     M2 S-2                     0       -10000  20 M2 S-2                    0         7".
Definition b7427 : text := " 010038 MAXIMUM HEIGHT OF DECK CARGO ABOVE SUMMER LOAD LINE              M                          0            0   6 M                         0         2".
Definition b7428 : text := " 010039 DEPARTURE OF REFERENCE LEVEL (SUMMER MAXIMUM LOAD LINE) FROM ACT M                          0          -32   6 M                         0         3".
Definition b7429 : text := " 010071 VERTICAL RESOLUTION                                              M                          0            0  14 M                         0         5".
Definition b7430 : text := " 010079 OFF-NADIR ANGLE OF THE SATELLITE FROM PLATFORM DATA              DEG                        4            0  16 DEG                       4         5".
Definition b7431 : text := " 010083 SQUARED OFF-NADIR ANGLE OF THE SATELLITE FROM PLATFORM DATA      DEG2                       2            0  16 DEG2                      2         5".
Definition b7432 : text := " 010084 SQUARED OFF-NADIR ANGLE OF THE SATELLITE FROM WAVEFORM DATA      DEG2                       2            0  16 DEG2                      2         5".
Definition b7433 : text := " 010085 MEAN SEA-SURFACE HEIGHT                                          M                          3      -131072  18 M                         3         6".
Definition b7434 : text := " 010097 MEAN SEA-SURFACE HEIGHT FROM ALTIMETER ONLY                      M                          3      -131072  18 M                         3         6".
Definition b7435 : text := " 010101 SQUARED OFF-NADIR ANGLE OF THE SATELLITE FROM WAVEFORM DATA      DEG2                       2       -32768  16 DEG2                      2         5".
Definition b7436 : text := " 010102 SEA-SURFACE HEIGHT ANOMALY                                       M                          3       -32768  16 M                         3         5".
Definition b7437 : text := " 010103 MEAN DYNAMIC TOPOGRAPHY ACCURACY                                 M                          3      -131072  18 M                         3         6".
Definition b7438 : text := " 011001 WIND DIRECTION                                                   DEG                        0            0   9 DEG                       0         3".
Definition b7439 : text := " 011007 RELATIVE WIND DIRECTION (IN DEGREES OFF BOW)                     DEG                        0            0   9 DEG                       0         3".
Definition b7440 : text := " 011008 RELATIVE WIND SPEED                                              M/S                        1            0  12 M/S                       1         4".
Definition b7441 : text := " 011010 WIND DIRECTION ASSOCIATED WITH WIND SPEED WHICH FOLLOWS          DEG                        0            0   9 DEG                       0         3".
Definition b7442 : text := " 011011 WIND DIRECTION AT 10 M                                           DEG                        0            0   9 DEG                       0         3".
Definition b7443 : text := " 011013 WIND DIRECTION AT 5 M                                            DEG                        0            0   9 DEG                       0         3".
Definition b7444 : text := " 011016 EXTREME COUNTERCLOCKWISE WIND DIRECTION OF A VARIABLE WIND       DEG                        0            0   9 DEG                       0         3".
Definition b7445 : text := " 011017 EXTREME CLOCKWISE WIND DIRECTION OF A VARIABLE WIND              DEG                        0            0   9 DEG                       0         3".
Definition b7446 : text := " 011030 EXTENDED DEGREE OF TURBULENCE                                    CODE TABLE 11030           0            0   6 CODE TABLE 11030          0         2".
Definition b7447 : text := " 011035 VERTICAL GUST ACCELERATION                                       M S-2                      2        -8192  14 M S-2                     2         5".
Definition b7448 : text := " 011043 MAXIMUM WIND GUST DIRECTION                                      DEG                        0            0   9 DEG                       0         3".
Definition b7449 : text := " 011044 MEAN WIND DIRECTION FOR SURFACE - 1 500 M (5 000 FEET)           DEG                        0            0   9 DEG                       0         3".
Definition b7450 : text := " 011049 STANDARD DEVIATION OF WIND DIRECTION                             DEG                        0            0   9 DEG                       0         3".
Definition b7451 : text := " 011053 FORMAL UNCERTAINTY IN WIND DIRECTION                             DEG                        2            0  15 DEG                       2         5".
Definition b7452 : text := " 011054 MEAN WIND DIRECTION FOR 1 500 - 3 000 M                          DEG                        0            0   9 DEG                       0         3".
Definition b7453 : text := " 011071 TURBULENT VERTICAL MOMENTUM FLUX                                 M2 S-2                     3         -128  14 M2 S-2                    3         5".
Definition b7454 : text := " 011072 TURBULENT VERTICAL BUOYANCY FLUX                                 K M S-1                    3         -128  11 K M S-1                   3         4".
Definition b7455 : text := " 011073 TURBULENT KINETIC ENERGY                                         M2 S-2                     2        -1024  13 M2 S-2                    2         4".
Definition b7456 : text := " 011074 DISSIPATION ENERGY                                               M2 S-2                     2        -1024  10 M2 S-2                    2         4".
Definition b7457 : text := " 011075 MEAN TURBULENCE INTENSITY (EDDY DISSIPATION RATE)                M2/3 S-1                   2            0   8 M2/3 S-1                  2         3".
Definition b7458 : text := " 011076 PEAK TURBULENCE INTENSITY (EDDY DISSIPATION RATE)                M2/3 S-1                   2            0   8 M2/3 S-1                  2         3".
Definition b7459 : text := " 011081 MODEL WIND DIRECTION AT 10 M                                     DEG                        2            0  16 DEG                       2         5".
Definition b7460 : text := " 011100 AIRCRAFT TRUE AIRSPEED                                           M/S                        1            0  12 M/S                       1         4".
Definition b7461 : text := " 011101 AIRCRAFT GROUND SPEED U-COMPONENT                                M/S                        1        -4096  13 M/S                       1         4".
Definition b7462 : text := " 011102 AIRCRAFT GROUND SPEED V-COMPONENT                                M/S                        1        -4096  13 M/S                       1         4".
Definition b7463 : text := " 011103 AIRCRAFT GROUND SPEED W-COMPONENT                                M/S                        1         -512  10 M/S                       1         3".
Definition b7464 : text := " 011104 TRUE HEADING OF AIRCRAFT, SHIP OR OTHER MOBILE PLATFORM          DEG                        0            0   9 DEG                       0         3".
Definition b7465 : text := " 011110 UNCERTAINTY IN U-COMPONENT                                       M/S                        1        -4096  13 M/S                       1         4".
Definition b7466 : text := " 011111 UNCERTAINTY IN V-COMPONENT                                       M/S                        1        -4096  13 M/S                       1         4".
Definition b7467 : text := " 011112 UNCERTAINTY IN W-COMPONENT                                       M/S                        2        -4096  13 M/S                       2         4".
Definition b7468 : text := " 011113 TRACKING CORRELATION OF VECTOR                                   NUMERIC                    3        -1000  12 NUMERIC                   3         4".
Definition b7469 : text := " 012003 DEWPOINT TEMPERATURE                                             K                          1            0  12 C                         1         3".
Definition b7470 : text := " 012004 AIR TEMPERATURE AT 2 M                                           K                          1            0  12 C                         1         3".
Definition b7471 : text := " 012006 DEWPOINT TEMPERATURE AT 2 M                                      K                          1            0  12 C                         1         3".
Definition b7472 : text := " 012008 UNCERTAINTY IN VIRTUAL TEMPERATURE                               K                          1            0  12 C                         1         4".
Definition b7473 : text := " 012024 DEWPOINT TEMPERATURE                                             C                          0          -99   8 C                         0         2".
Definition b7474 : text := " 012072 RADIANCE                                                         W M-2 SR-1                 6            0  31 W M-2 SR-1                6         9".
Definition b7475 : text := " 012075 SPECTRAL RADIANCE                                                W M-3 SR-1                -3            0  16 W M-3 SR-1               -3         5".
Definition b7476 : text := " 012076 RADIANCE                                                         W M-2 SR-1                 3            0  16 W M-2 SR-1                3         5".
Definition b7477 : text := " 012103 DEWPOINT TEMPERATURE                                             K                          2            0  16 C                         2         4".
Definition b7478 : text := " 012106 DEWPOINT TEMPERATURE AT 2 M                                      K                          2            0  16 C                         2         4".
Definition b7479 : text := " 012128 ROAD SURFACE TEMPERATURE                                         K                          2            0  16 C                         2         5".
Definition b7480 : text := " 012129 ROAD SUBSURFACE TEMPERATURE                                      K                          2            0  16 C                         2         5".
Definition b7481 : text := " 012167 RADIOMETRIC ACCURACY (PURE POLARIZATION)                         K                          1            0   9 K                         1         3".
Definition b7482 : text := " 012168 RADIOMETRIC ACCURACY (CROSS POLARIZATION)                        K                          1            0   9 K                         1         3".
Definition b7483 : text := " 013005 VAPOUR DENSITY                                                   KG M-3                     3            0   7 KG M-3                    3         3".
Definition b7484 : text := " 013011 TOTAL PRECIPITATION/TOTAL WATER EQUIVALENT                       KG M-2                     1           -1  14 KG M-2                    1         5".
Definition b7485 : text := " 013014 RAINFALL/WATER EQUIVALENT OF SNOW (AVERAGED RATE)                KG M-2 S-1                 4            0  12 KG M-2 S-1                4         4".
Definition b7486 : text := " 013016 PRECIPITABLE WATER                                               KG M-2                     0            0   7 KG M-2                    0         3".
Definition b7487 : text := " 013019 TOTAL PRECIPITATION PAST 1 HOUR                                  KG M-2                     1           -1  14 KG M-2                    1         4".
Definition b7488 : text := " 013020 TOTAL PRECIPITATION PAST 3 HOURS                                 KG M-2                     1           -1  14 KG M-2                    1         5".
Definition b7489 : text := " 013021 TOTAL PRECIPITATION PAST 6 HOURS                                 KG M-2                     1           -1  14 KG M-2                    1         5".
Definition b7490 : text := " 013022 TOTAL PRECIPITATION PAST 12 HOURS                                KG M-2                     1           -1  14 KG M-2                    1         5".
Definition b7491 : text := " 013023 TOTAL PRECIPITATION PAST 24 HOURS                                KG M-2                     1           -1  14 KG M-2                    1         5".
Definition b7492 : text := " 013031 EVAPOTRANSPIRATION                                               KG M-2                     0            0   7 KG M-2                    0         3".
Definition b7493 : text := " 013032 EVAPORATION/EVAPOTRANSPIRATION                                   KG M-2                     1            0   8 KG M-2                    1         3".
Definition b7494 : text := " 013033 EVAPORATION/EVAPOTRANSPIRATION                                   KG M-2                     1            0  10 KG M-2                    1         4".
Definition b7495 : text := " 013052 HIGHEST DAILY AMOUNT OF PRECIPITATION                            KG M-2                     1           -1  14 KG M-2                    1         5".
Definition b7496 : text := " 013055 INTENSITY OF PRECIPITATION                                       KG M-2 S-1                 4            0   8 MM/H                      1         4".
Definition b7497 : text := " 013060 TOTAL ACCUMULATED PRECIPITATION                                  KG M-2                     1           -1  17 KG M-2                    1         5".
Definition b7498 : text := " 013080 WATER PH                                                         PH UNIT                    1            0  10 PH UNIT                   1         3".
Definition b7499 : text := " 013083 DISSOLVED OXYGEN                                                 KG M-3                     6            0  15 KG M-3                    6         5".
Definition b7500 : text := " 013085 OXIDATION REDUCTION POTENTIAL (ORP)                              V                          3            0  14 V                         3         4".
Definition b7501 : text := " 013090 RADIOMETER WATER VAPOUR CONTENT                                  KG M-2                     1            0  10 KG M-2                    1         4".
Definition b7502 : text := " 013091 RADIOMETER LIQUID CONTENT                                        KG M-2                     2            0   8 KG M-2                    2         3".
Definition b7503 : text := " 013095 TOTAL COLUMN WATER VAPOUR                                        KG M-2                     4            0  19 KG M-2                    4         6".
Definition b7504 : text := " 013096 MWR WATER VAPOUR CONTENT                                         KG M-2                     2            0  14 KG M-2                    2         5".
Definition b7505 : text := " 013097 MWR LIQUID WATER CONTENT                                         KG M-2                     2            0  14 KG M-2                    2         5".
Definition b7506 : text := " 013098 INTEGRATED WATER VAPOUR DENSITY                                  KG M-2                     8            0  30 KG M-2                    8        10".
Definition b7507 : text := " 013099 LOG10 OF INTEGRATED CLOUD PARTICLE DENSITY                       LOG (M-2)                  1            0   7 LOG (M-2)                 1         3".
Definition b7508 : text := " 013100 LOG10 OF INTEGRATED CLOUD PARTICLE AREA                          LOG (M2 M-2)               1          -70   7 LOG (M2 M-2)              1         2".
Definition b7509 : text := " 013101 LOG10 OF INTEGRATED CLOUD PARTICLE VOLUME                        LOG (M3 M-2)               1         -140   7 LOG (M3 M-2)              1         3".
Definition b7510 : text := " 013109 ICE/LIQUID WATER PATH                                            KG M-2                     3            0  10 KG M-2                    3         4".
Definition b7511 : text := " 013114 RATE OF ICE ACCRETION                                            KG M-2 H-1                 1            0  11 KG M-2 H-1                1         4".
Definition b7512 : text := " 013116 WATER FILM THICKNESS                                             M                          4            0  10 M                         3         2".
Definition b7513 : text := " 013117 SNOW DENSITY (LIQUID WATER CONTENT)                              KG M-3                     0            0  10 KG M-3                    0         3".
Definition b7514 : text := " 013118 DEPTH OF FRESH SNOW (HIGH ACCURACY)                              M                          3           -2  14 M                         3         5".
Definition b7515 : text := " 013155 INTENSITY OF PRECIPITATION (HIGH ACCURACY)                       KG M-2 S-1                 5           -1  16 MM/H                      2         5".
Definition b7516 : text := " 013160 RADIOMETER LIQUID CONTENT                                        KG M-2                     2         -350  10 KG M-2                    2         3".
Definition b7517 : text := " 013162 CLOUD LIQUID WATER                                               KG M-2                     2            0   8 KG M-2                    2         3".
Definition b7518 : text := " 013163 SNOW WATER EQUIVALENT                                            KG M-2                     0            0  16 KG M-2                    0         5".
Definition b7519 : text := " 013164 SEA ICE FREEBOARD                                                M                          3      -131072  18 M                         3         6".
Definition b7520 : text := " 014001 LONG-WAVE RADIATION, INTEGRATED OVER 24 HOURS                    J M-2                     -3       -65536  17 J M-2                    -3         5".
Definition b7521 : text := " 014002 LONG-WAVE RADIATION, INTEGRATED OVER PERIOD SPECIFIED            J M-2                     -3       -65536  17 J M-2                    -3         5".
Definition b7522 : text := " 014003 SHORT-WAVE RADIATION, INTEGRATED OVER 24 HOURS                   J M-2                     -3       -65536  17 J M-2                    -3         5".
Definition b7523 : text := " 014004 SHORT-WAVE RADIATION, INTEGRATED OVER PERIOD SPECIFIED           J M-2                     -3       -65536  17 J M-2                    -3         5".
Definition b7524 : text := " 014011 NET LONG-WAVE RADIATION, INTEGRATED OVER 24 HOURS                J M-2                     -3       -65536  17 J M-2                    -3         5".
Definition b7525 : text := " 014012 NET LONG-WAVE RADIATION, INTEGRATED OVER PERIOD SPECIFIED        J M-2                     -3       -65536  17 J M-2                    -3         5".
Definition b7526 : text := " 014013 NET SHORT-WAVE RADIATION, INTEGRATED OVER 24 HOURS               J M-2                     -3       -65536  17 J M-2                    -3         5".
Definition b7527 : text := " 014014 NET SHORT-WAVE RADIATION, INTEGRATED OVER PERIOD SPECIFIED       J M-2                     -3       -65536  17 J M-2                    -3         5".
Definition b7528 : text := " 014015 NET RADIATION, INTEGRATED OVER 24 HOURS                          J M-2                     -4       -16384  15 J M-2                    -4         5".
Definition b7529 : text := " 014016 NET RADIATION, INTEGRATED OVER PERIOD SPECIFIED                  J M-2                     -4       -16384  15 J M-2                    -4         5".
Definition b7530 : text := " 014017 INSTANTANEOUS LONG-WAVE RADIATION                                W M-2                      0         -512  10 W M-2                     0         4".
Definition b7531 : text := " 014018 INSTANTANEOUS SHORT-WAVE RADIATION                               W M-2                      0        -2048  12 W M-2                     0         4".
Definition b7532 : text := " 014020 GLOBAL SOLAR RADIATION, INTEGRATED OVER 24 HOURS                 J M-2                     -4            0  15 J M-2                    -4         5".
Definition b7533 : text := " 014021 GLOBAL SOLAR RADIATION, INTEGRATED OVER PERIOD SPECIFIED         J M-2                     -4            0  15 J M-2                    -4         5".
Definition b7534 : text := " 014022 DIFFUSE SOLAR RADIATION, INTEGRATED OVER 24 HOURS                J M-2                     -4            0  15 J M-2                    -4         5".
Definition b7535 : text := " 014023 DIFFUSE SOLAR RADIATION, INTEGRATED OVER PERIOD SPECIFIED        J M-2                     -4            0  15 J M-2                    -4         5".
Definition b7536 : text := " 014024 DIRECT SOLAR RADIATION, INTEGRATED OVER 24 HOURS                 J M-2                     -4            0  15 J M-2                    -4         5".
Definition b7537 : text := " 014025 DIRECT SOLAR RADIATION, INTEGRATED OVER PERIOD SPECIFIED         J M-2                     -4            0  15 J M-2                    -4         5".
Definition b7538 : text := " 014028 GLOBAL SOLAR RADIATION (HIGH ACCURACY), INTEGRATED OVER PERIOD S J M-2                     -2            0  20 J M-2                    -2         6".
Definition b7539 : text := " 014029 DIFFUSE SOLAR RADIATION (HIGH ACCURACY), INTEGRATED OVER PERIOD  J M-2                     -2            0  20 J M-2                    -2         6".
Definition b7540 : text := " 014030 DIRECT SOLAR RADIATION (HIGH ACCURACY), INTEGRATED OVER PERIOD S J M-2                     -2            0  20 J M-2                    -2         6".
Definition b7541 : text := " 014035 SOLAR RADIATION FLUX                                             W M-2                      1            0  14 W M-2                     1         5".
Definition b7542 : text := " 014043 CHANNEL RADIANCE                                                 W M-2 SR-1 UM-1            4            0  23 W M-2 SR-1 UM-1           4         7".
Definition b7543 : text := " 014044 CHANNEL RADIANCE                                                 W M-2 SR-1 CM              7      -100000  22 W M-2 SR-1 CM             7         7".
Definition b7544 : text := " 014045 CHANNEL RADIANCE                                                 W M-2 SR-1 CM              0            0  11 W M-2 SR-1 CM             0         4".
Definition b7545 : text := " 014046 SCALED RADIANCE                                                  W M-2 SR-1 M               0        -5000  16 W M-2 SR-1 M              0         5".
Definition b7546 : text := " 014047 SCALED MEAN AVHRR RADIANCE                                       W M-2 SR-1 M               0            0  31 W M-2 SR-1 M              0        10".
Definition b7547 : text := " 014048 SCALED STANDARD DEVIATION AVHRR RADIANCE                         W M-2 SR-1 M               0            0  31 W M-2 SR-1 M              0        10".
Definition b7548 : text := " 014051 DIRECT SOLAR RADIATION INTEGRATED OVER LAST HOUR                 J M-2                     -3            0  14 J M-2                    -3         4".
Definition b7549 : text := " 014052 GLOBAL UPWARD SOLAR RADIATION, INTEGRATED OVER PERIOD SPECIFIED  J M-2                     -2     -1048574  20 J M-2                    -2         7".
Definition b7550 : text := " 014053 NET RADIATION (HIGH ACCURACY), INTEGRATED OVER PERIOD SPECIFIED  J M-2                     -2     -1048574  21 J M-2                    -2         7".
Definition b7551 : text := " 014054 PHOTOSYNTHETICALLY ACTIVE RADIATION, INTEGRATED OVER PERIOD SPEC J M-2                     -3            0  16 J M-2                    -3         5".
Definition b7552 : text := " 014056 BACKGROUND LUMINANCE                                             CD M-2                     0            0  18 CD M-2                    0         6".
Definition b7553 : text := " 014057 SOIL HEAT FLUX                                                   J M-2                     -2     -1048574  21 J M-2                    -2         7".
Definition b7554 : text := " 014072 GLOBAL UV IRRADIATION                                            J M-2                      0     -4000000  23 J M-2                     0         7".
Definition b7555 : text := " 015006 LOG10 OF NUMBER DENSITY OF ATMOSPHERE                            LOG (M-3)                  5      1800000  20 LOG (M-3)                 5         7".
Definition b7556 : text := " 015009 LOG10 OF NUMBER DENSITY OF OZONE                                 LOG (M-3)                  5      1200000  20 LOG (M-3)                 5         7".
Definition b7557 : text := " 015011 LOG10 OF INTEGRATED ELECTRON DENSITY                             LOG (M-2)                  3        14000  13 LOG (M-2)                 3         4".
Definition b7558 : text := " 015020 INTEGRATED OZONE DENSITY                                         KG M-2                     8            0  21 KG M-2                    8         7".
Definition b7559 : text := " 015021 INTEGRATED MASS DENSITY                                          KG M-2                    11            0  31 KG M-2                   11        10".
Definition b7560 : text := " 015027 CONCENTRATION OF POLLUTANT (KG M-3)                              KG M-3                     9            0  10 KG M-3                    9         4".
Definition b7561 : text := " 015028 MOLE FRACTION OF ATMOSPHERIC CONSTITUENT/POLLUTANT IN DRY AIR    0/00                       5            0  16 0/00                      5         5".
Definition b7562 : text := " 015029 EXTINCTION COEFFICIENT                                           /M                         9            0  30 /M                        9        10".
Definition b7563 : text := " 015036 ATMOSPHERIC REFRACTIVITY                                         N UNITS                    3            0  19 N UNITS                   3         6".
Definition b7564 : text := " 015041 SULPHUR DIOXIDE INDEX                                            NUMERIC                    2        -1200  14 NUMERIC                   2         4".
Definition b7565 : text := " 015045 SULPHUR DIOXIDE                                                  DU                         2        -2000  15 DU                        2         5".
Definition b7566 : text := " 015046 VOLCANO CONTAMINATION INDEX                                      NUMERIC                    2        -1000  11 NUMERIC                   2         4".
Definition b7567 : text := " 015049 AEROSOL ANGSTROM WAVELENGTH EXPONENT                             NUMERIC                    3        -2000  14 NUMERIC                   3         5".
Definition b7568 : text := " 015052 LOG10 OF NUMBER DENSITY OF AEROSOL PARTICLES WITH DIAMETER GREAT LOG (M-3)                  1           60   6 LOG (M-3)                 1         3".
Definition b7569 : text := " 015053 LOG10 OF NUMBER DENSITY OF AEROSOL PARTICLES WITH DIAMETER GREAT LOG (M-3)                  2          600   9 LOG (M-3)                 2         4".
Definition b7570 : text := " 015054 LOG10 OF NUMBER DENSITY OF AEROSOL PARTICLES WITH DIAMETER BETWE LOG (M-3)                  2          550   9 LOG (M-3)                 2         4".
Definition b7571 : text := " 015055 NON VOLATILE AEROSOL RATIO                                       NUMERIC                    2            0   7 NUMERIC                   2         3".
Definition b7572 : text := " 015062 AEROSOL OPTICAL THICKNESS                                        NUMERIC                    3        -1000  14 NUMERIC                   3         5".
Definition b7573 : text := " 015063 ATTENUATED BACKSCATTER                                           M-1 SR-1                   8            0  20 M-1 SR-1                  8         7".
Definition b7574 : text := " 015064 UNCERTAINTY IN ATTENUATED BACKSCATTER                            M-1 SR-1                   8            0  20 M-1 SR-1                  8         7".
Definition b7575 : text := " 015065 PARTICLE BACKSCATTER COEFFICIENT                                 M-1 SR-1                   8            0  20 M-1 SR-1                  8         7".
Definition b7576 : text := " 015066 UNCERTAINTY IN PARTICLE BACKSCATTER COEFFICIENT                  M-1 SR-1                   8            0  20 M-1 SR-1                  8         7".
Definition b7577 : text := " 015067 PARTICLE EXTINCTION COEFFICIENT                                  /M                         8            0  20 /M                        8         7".
Definition b7578 : text := " 015068 UNCERTAINTY IN PARTICLE EXTINCTION COEFFICIENT                   /M                         8            0  20 /M                        8         7".
Definition b7579 : text := " 015069 PARTICLE LIDAR RATIO                                             SR                         2            0  14 SR                        2         5".
Definition b7580 : text := " 015070 UNCERTAINTY IN LIDAR RATIO                                       SR                         2            0  14 SR                        2         5".
Definition b7581 : text := " 015071 PARTICLE DEPOLARIZATION RATIO                                    %                          2            0  14 %                         2         5".
Definition b7582 : text := " 015072 UNCERTAINTY IN DEPOLARIZATION RATIO                              %                          2            0  14 %                         2         5".
Definition b7583 : text := " 019005 DIRECTION OF MOTION OF FEATURE                                   DEG                        0            0   9 DEG                       0         3".
Definition b7584 : text := " 019107 TIME INTERVAL OVER WHICH THE MOVEMENT OF THE TROPICAL CYCLONE HA CODE TABLE 19107           0            0   4 CODE TABLE 19107          0         2".
Definition b7585 : text := " 019110 APPARENT 24-HOUR CHANGE IN INTENSITY OF THE TROPICAL CYCLONE     CODE TABLE 19110           0            0   4 CODE TABLE 19110          0         2".
Definition b7586 : text := " 019113 CLOUD PATTERN TYPE OF THE DT-NUMBER                              CODE TABLE 19113           0            0   4 CODE TABLE 19113          0         2".
Definition b7587 : text := " 019117 CLOUD PICTURE TYPE OF THE PT-NUMBER                              CODE TABLE 19117           0            0   3 CODE TABLE 19117          0         1".
Definition b7588 : text := " 020003 PRESENT WEATHER                                                  CODE TABLE 20003           0            0   9 CODE TABLE 20003          0         3".
Definition b7589 : text := " 020004 PAST WEATHER (1)                                                 CODE TABLE 20004           0            0   5 CODE TABLE 20004          0         2".
Definition b7590 : text := " 020005 PAST WEATHER (2)                                                 CODE TABLE 20005           0            0   5 CODE TABLE 20005          0         2".
Definition b7591 : text := " 020032 RATE OF ICE ACCRETION (ESTIMATED)                                CODE TABLE 20032           0            0   3 CODE TABLE 20032          0         1".
Definition b7592 : text := " 020038 BEARING OF ICE EDGE                                              DEG                        0            0  12 DEG                       0         3".
Definition b7593 : text := " 020040 EVOLUTION OF DRIFT SNOW                                          CODE TABLE 20040           0            0   4 CODE TABLE 20040          0         2".
Definition b7594 : text := " 020043 PEAK LIQUID WATER CONTENT                                        KG M-3                     4            0   7 KG M-3                    4         2".
Definition b7595 : text := " 020044 AVERAGE LIQUID WATER CONTENT                                     KG M-3                     4            0   7 KG M-3                    4         2".
Definition b7596 : text := " 020045 SUPERCOOLED LARGE DROPLET (SLD) CONDITIONS                       CODE TABLE 20045           0            0   2 CODE TABLE 20045          0         1".
Definition b7597 : text := " 020048 EVOLUTION OF FEATURE                                             CODE TABLE 20048           0            0   4 CODE TABLE 20048          0         2".
Definition b7598 : text := " 020054 TRUE DIRECTION FROM WHICH A PHENOMENON OR CLOUDS ARE MOVING OR I DEG                        0            0   9 DEG                       0         3".
Definition b7599 : text := " 020055 STATE OF SKY IN THE TROPICS                                      CODE TABLE 20055           0            0   4 CODE TABLE 20055          0         2".
Definition b7600 : text := " 020086 RUNWAY DEPOSITS                                                  CODE TABLE 20086           0            0   4 CODE TABLE 20086          0         1".
Definition b7601 : text := " 020089 RUNWAY FRICTION COEFFICIENT                                      CODE TABLE 20089           0            0   7 CODE TABLE 20089          0         2".
Definition b7602 : text := " 020096 ICE AGE (A PARAMETER)                                            DB                         2        -4096  13 DB                        2         4".
Definition b7603 : text := " 020102 LOCUST (MATURITY) COLOUR                                         CODE TABLE 20102           0            0   4 CODE TABLE 20102          0         2".
Definition b7604 : text := " 020119 LIGHTNING DISCHARGE POLARITY                                     CODE TABLE 20119           0            0   2 CODE TABLE 20119          0         1".
Definition b7605 : text := " 020124 LIGHTNING STROKE OR FLASH                                        CODE TABLE 20124           0            0   2 CODE TABLE 20124          0         1".
Definition b7606 : text := " 020126 LIGHTNING RATE OF DISCHARGE                                      /H                         0            0  23 /H                        0         7".
Definition b7607 : text := " 020128 LIGHTNING - DIRECTION FROM STATION                               DEG                        1            0  12 DEG                       1         4".
Definition b7608 : text := " 020129 LIGHTNING DENSITY (STROKE, FLASH OR EVENT)                       M-2                        6            0  10 M-2                       6         4".
Definition b7609 : text := " 020132 CLOUD LIQUID WATER CONTENT                                       KG M-3                     5            0  11 KG M-3                    5         4".
Definition b7610 : text := " 020136 SUPPLEMENTARY CLOUD TYPE                                         CODE TABLE 20136           0            0   9 CODE TABLE 20136          0         3".
Definition b7611 : text := " 020137 EVOLUTION OF CLOUDS                                              CODE TABLE 20137           0            0   4 CODE TABLE 20137          0         2".
Definition b7612 : text := " 020138 ROAD SURFACE CONDITION                                           CODE TABLE 20138           0            0   4 CODE TABLE 20138          0         2".
Definition b7613 : text := " 021001 HORIZONTAL REFLECTIVITY                                          DB                         0          -64   7 DB                        0         3".
Definition b7614 : text := " 021002 VERTICAL REFLECTIVITY                                            DB                         0          -64   7 DB                        0         3".
Definition b7615 : text := " 021003 DIFFERENTIAL REFLECTIVITY                                        DB                         1           -5   7 DB                        1         3".
Definition b7616 : text := " 021004 DIFFERENTIAL REFLECTIVITY                                        DB                         2         -800  11 DB                        2         4".
Definition b7617 : text := " 021005 LINEAR DEPOLARIZATION RATIO                                      DB                         0          -65   6 DB                        0         2".
Definition b7618 : text := " 021006 CIRCULAR DEPOLARIZATION RATIO                                    DB                         0          -65   6 DB                        0         2".
Definition b7619 : text := " 021028 DIFFERENTIAL PHASE                                               DEG                        1            0  12 DEG                       1         4".
Definition b7620 : text := " 021029 CROSS-POLARIZATION CORRELATION COEFFICIENT                       NUMERIC                    2         -100   8 NUMERIC                   2         3".
Definition b7621 : text := " 021030 SIGNAL TO NOISE RATIO                                            DB                         0          -32   8 DB                        0         3".
Definition b7622 : text := " 021031 VERTICALLY INTEGRATED LIQUID-WATER CONTENT                       KG M-2                     0            0   7 KG M-2                    0         3".
Definition b7623 : text := " 021051 SIGNAL POWER ABOVE 1 MW                                          DB                         0         -256   8 DB                        0         3".
Definition b7624 : text := " 021062 BACKSCATTER                                                      DB                         2        -5000  13 DB                        2         4".
Definition b7625 : text := " 021073 SATELLITE ALTIMETER INSTRUMENT MODE                              FLAG TABLE 21073           0            0   9 FLAG TABLE 21073          0         3".
Definition b7626 : text := " 021082 OPEN LOOP CORRECTION (AUTO GAIN CONTROL)                         DB                         3        -3000  14 DB                        3         5".
Definition b7627 : text := " 021085 ATSR SEA-SURFACE TEMPERATURE ACROSS-TRACK BAND NUMBER            NUMERIC                    0            0   4 NUMERIC                   0         2".
Definition b7628 : text := " 021088 WET BACKSCATTER                                                  DB                         2        -5000  13 DB                        2         4".
Definition b7629 : text := " 021091 RADAR SIGNAL DOPPLER SPECTRUM 0TH MOMENT                         DB                         0         -100   8 DB                        0         3".
Definition b7630 : text := " 021092 RASS SIGNAL DOPPLER SPECTRUM 0TH MOMENT, REFERRING TO RASS SIGNA DB                         0         -100   8 DB                        0         3".
Definition b7631 : text := " 021105 NORMALIZED RADAR CROSS-SECTION                                   DB                         2       -10000  14 DB                        2         5".
Definition b7632 : text := " 021114 KP VARIANCE COEFFICIENT (GAMMA)                                  DB                         3      -140000  18 DB                        3         6".
Definition b7633 : text := " 021118 ATTENUATION CORRECTION ON SIGMA-0                                DB                         2       -10000  14 DB                        2         5".
Definition b7634 : text := " 021122 ATTENUATION CORRECTION ON SIGMA-0 (FROM TB)                      DB                         2       -10000  14 DB                        2         5".
Definition b7635 : text := " 021123 SEAWINDS NORMALIZED RADAR CROSS-SECTION                          DB                         2       -30000  15 DB                        2         5".
Definition b7636 : text := " 021137 KU BAND CORRECTED OCEAN BACKSCATTER COEFFICIENT                  DB                         2       -32768  16 DB                        2         5".
Definition b7637 : text := " 021138 STD KU BAND CORRECTED OCEAN BACKSCATTER COEFFICIENT              DB                         2       -32768  16 DB                        2         5".
Definition b7638 : text := " 021139 KU BAND NET INSTRUMENTAL CORRECTION FOR AGC                      DB                         2        -2048  12 DB                        2         4".
Definition b7639 : text := " 021140 S BAND CORRECTED OCEAN BACKSCATTER COEFFICIENT                   DB                         2       -32768  16 DB                        2         5".
Definition b7640 : text := " 021141 STD S BAND CORRECTED OCEAN BACKSCATTER COEFFICIENT               DB                         2       -32768  16 DB                        2         5".
Definition b7641 : text := " 021142 S BAND NET INSTRUMENTAL CORRECTION FOR AGC                       DB                         2        -1024  11 DB                        2         4".
Definition b7642 : text := " 021143 KU BAND RAIN ATTENUATION                                         DB                         2  -1073741824  31 DB                        2        10".
Definition b7643 : text := " 021145 KU BAND AUTOMATIC GAIN CONTROL                                   DB                         2            0  13 DB                        2         4".
Definition b7644 : text := " 021146 RMS KU BAND AUTOMATIC GAIN CONTROL                               DB                         2            0   8 DB                        2         3".
Definition b7645 : text := " 021148 TRAILING EDGE VARIATION FLAG                                     FLAG TABLE 21148           0            0   9 FLAG TABLE 21148          0         3".
Definition b7646 : text := " 021150 BEAM CO-LOCATION                                                 CODE TABLE 21150           0            0   2 CODE TABLE 21150          0         1".
Definition b7647 : text := " 021151 ESTIMATED ERROR IN SIGMA-0 AT 40 DEGREES INCIDENCE ANGLE         DB                         2            0   9 DB                        2         3".
Definition b7648 : text := " 021152 SLOPE AT 40 DEGREES INCIDENCE ANGLE                              DB/DEG                     2          -80   7 DB/DEG                    2         2".
Definition b7649 : text := " 021153 ESTIMATED ERROR IN SLOPE AT 40 DEGREES INCIDENCE ANGLE           DB/DEG                     2          -40   6 DB/DEG                    2         2".
Definition b7650 : text := " 021154 SOIL MOISTURE SENSITIVITY                                        DB                         2            0  12 DB                        2         4".
Definition b7651 : text := " 021157 LOSS PER UNIT LENGTH OF ATMOSPHERE USED                          DB/M                      10            0  22 DB/M                     10         7".
Definition b7652 : text := " 021158 ASCAT KP ESTIMATE QUALITY                                        CODE TABLE 21158           0            0   2 CODE TABLE 21158          0         1".
Definition b7653 : text := " 021161 ASCAT SYNTHETIC DATA QUANTITY                                    NUMERIC                    3            0  10 NUMERIC                   3         4".
Definition b7654 : text := " 021169 ICE PRESENCE INDICATOR                                           CODE TABLE 21169           0            0   2 CODE TABLE 21169          0         1".
Definition b7655 : text := " 021170 C BAND CORRECTED OCEAN BACKSCATTER COEFFICIENT                   DB                         2       -32768  16 DB                        2         5".
Definition b7656 : text := " 021171 RMS C BAND CORRECTED OCEAN BACKSCATTER COEFFICIENT               DB                         2       -32768  16 DB                        2         5".
Definition b7657 : text := " 021172 C BAND NET INSTRUMENTAL CORRECTION FOR AGC                       DB                         2        -2048  12 DB                        2         4".
Definition b7658 : text := " 021173 C BAND AUTOMATIC GAIN CONTROL                                    DB                         2            0  13 DB                        2         4".
Definition b7659 : text := " 021174 RMS C BAND AUTOMATIC GAIN CONTROL                                DB                         2            0   9 DB                        2         3".
Definition b7660 : text := " 021176 HIGH FREQUENCY VARIABILITY CORRECTION                            M                          3            0  16 M                         3         5".
Definition b7661 : text := " 021177 CORRECTED OCOG* BACKSCATTER COEFFICIENT                          DB                         2            0  16 DB                        2         5".
Definition b7662 : text := " 021178 STD OF 20 HZ OCOG BACKSCATTER COEFFICIENT                        DB                         2            0  16 DB                        2         5".
Definition b7663 : text := " 021179 NUMBER OF 20 HZ VALID POINTS FOR OCOG BACKSCATTER COEFFICIENT    NUMERIC                    0            0  16 NUMERIC                   0         5".
Definition b7664 : text := " 021180 NUMBER OF 20 HZ VALID POINTS FOR OCEAN BACKSCATTER COEFFICIENT   NUMERIC                    0            0   8 NUMERIC                   0         3".
Definition b7665 : text := " 021181 20 HZ OCEAN BACKSCATTER COEFFICIENT                              DB                         2            0  16 DB                        2         5".
Definition b7666 : text := " 021182 20 HZ KU BAND PEAKINESS                                          NUMERIC                    3            0  16 NUMERIC                   3         5".
Definition b7667 : text := " 021183 SPECIFIC BAND CORRECTED OCEAN BACKSCATTER COEFFICIENT            DB                         2       -32768  16 DB                        2         5".
Definition b7668 : text := " 021184 STD SPECIFIC BAND CORRECTED OCEAN BACKSCATTER COEFFICIENT        DB                         2       -32768  16 DB                        2         5".
Definition b7669 : text := " 021185 SPECIFIC BAND NET INSTRUMENTAL CORRECTION FOR AGC                DB                         2        -2048  12 DB                        2         4".
Definition b7670 : text := " 021186 SPECIFIC BAND AUTOMATIC GAIN CONTROL                             DB                         2            0  13 DB                        2         4".
Definition b7671 : text := " 021187 RMS SPECIFIC BAND AUTOMATIC GAIN CONTROL                         DB                         2            0   8 DB                        2         3".
Definition b7672 : text := " 021188 NUMBER OF VALID POINTS FOR SPECIFIC BAND AUTOMATIC GAIN CONTROL  NUMERIC                    0            0   7 NUMERIC                   0         3".
Definition b7673 : text := " 022001 DIRECTION OF WAVES                                               DEG                        0            0   9 DEG                       0         3".
Definition b7674 : text := " 022002 DIRECTION OF WIND WAVES                                          DEG                        0            0   9 DEG                       0         3".
Definition b7675 : text := " 022003 DIRECTION OF SWELL WAVES                                         DEG                        0            0   9 DEG                       0         3".
Definition b7676 : text := " 022004 DIRECTION OF CURRENT                                             DEG                        0            0   9 DEG                       0         3".
Definition b7677 : text := " 022005 DIRECTION OF SEA-SURFACE CURRENT                                 DEG                        0            0   9 DEG                       0         3".
Definition b7678 : text := " 022032 SPEED OF SEA-SURFACE CURRENT                                     M/S                        2            0  13 M/S                       2         4".
Definition b7679 : text := " 022049 SEA-SURFACE TEMPERATURE                                          K                          2            0  15 K                         2         5".
Definition b7680 : text := " 022059 SEA-SURFACE SALINITY                                             0/00                       2            0  14 0/00                      2         5".
Definition b7681 : text := " 022067 INSTRUMENT TYPE FOR WATER TEMPERATURE/SALINITY PROFILE MEASUREME CODE TABLE 22067           0            0  10 CODE TABLE 22067          0         4".
Definition b7682 : text := " 022069 SPECTRAL WAVE DENSITY                                            M2/HZ                      3            0  22 M2/HZ                     3         7".
Definition b7683 : text := " 022072 SPECTRAL PEAK WAVELENGTH                                         M                          0            0  13 M                         0         4".
Definition b7684 : text := " 022075 AVERAGE WAVELENGTH                                               M                          0            0  13 M                         0         4".
Definition b7685 : text := " 022076 DIRECTION FROM WHICH DOMINANT WAVES ARE COMING                   DEG                        0            0   9 DEG                       0         3".
Definition b7686 : text := " 022080 WAVEBAND CENTRAL FREQUENCY                                       HZ                         3            0  10 HZ                        3         4".
Definition b7687 : text := " 022081 WAVEBAND CENTRAL WAVE NUMBER                                     /M                         5            0  13 /M                        5         4".
Definition b7688 : text := " 022082 MAXIMUM NON-DIRECTIONAL SPECTRAL WAVE DENSITY                    M2 S                       2            0  20 M2 S                      2         7".
Definition b7689 : text := " 022086 MEAN DIRECTION FROM WHICH WAVES ARE COMING                       DEG                        0            0   9 DEG                       0         3".
Definition b7690 : text := " 022087 PRINCIPAL DIRECTION FROM WHICH WAVES ARE COMING                  DEG                        0            0   9 DEG                       0         3".
Definition b7691 : text := " 022090 NON-DIRECTIONAL SPECTRAL ESTIMATE BY WAVE FREQUENCY              M2 S                       2            0  20 M2 S                      2         7".
Definition b7692 : text := " 022092 DIRECTIONAL SPECTRAL ESTIMATE BY WAVE FREQUENCY                  M2 RAD-1 S                 2            0  20 M2 RAD-1 S                2         7".
Definition b7693 : text := " 022099 MEAN DIRECTION AT LOW WAVE NUMBERS (WAVELENGTH > 731 M)          DEG                        0            0   9 DEG                       0         3".
Definition b7694 : text := " 022102 SCALED MAXIMUM NON-DIRECTIONAL SPECTRAL WAVE DENSITY BY FREQUENC M2 S                       0            0  14 M2 S                      0         5".
Definition b7695 : text := " 022103 SCALED MAXIMUM NON-DIRECTIONAL SPECTRAL WAVE DENSITY BY WAVE NUM M3                         0            0  14 M3                        0         5".
Definition b7696 : text := " 022104 SCALED NON-DIRECTIONAL SPECTRAL WAVE DENSITY BY FREQUENCY        M2 S                       0            0  14 M2 S                      0         5".
Definition b7697 : text := " 022105 SCALED NON-DIRECTIONAL SPECTRAL WAVE DENSITY BY WAVE NUMBER      M3                         0            0  14 M3                        0         5".
Definition b7698 : text := " 022106 SCALED DIRECTIONAL SPECTRAL WAVE DENSITY BY FREQUENCY            M2 RAD-1 S                 0            0  14 M2 RAD-1 S                0         5".
Definition b7699 : text := " 022107 SCALED DIRECTIONAL SPECTRAL WAVE DENSITY BY WAVE NUMBER          M4                         0            0  14 M4                        0         5".
Definition b7700 : text := " 022108 SPECTRAL WAVE DENSITY RATIO                                      %                          0            0   7 %                         0         3".
Definition b7701 : text := " 022130 NUMBER OF VALID POINTS FOR SPECIFIC BAND                         NUMERIC                    0            0  10 NUMERIC                   0         4".
Definition b7702 : text := " 022131 RMS SPECIFIC BAND SIGNIFICANT WAVE HEIGHT                        M                          3            0  16 M                         3         5".
Definition b7703 : text := " 022132 NUMBER OF VALID POINTS FOR SPECIFIC BAND SIGNIFICANT WAVE HEIGHT NUMERIC                    0            0  10 NUMERIC                   0         4".
Definition b7704 : text := " 022133 SPECIFIC BAND NET INSTRUMENT CORRECTION FOR SIGNIFICANT WAVE HEI M                          3        -1000  11 M                         3         4".
Definition b7705 : text := " 022134 NUMBER OF VALID POINTS FOR SPECIFIC BAND BACKSCATTER             NUMERIC                    0            0  10 NUMERIC                   0         4".
Definition b7706 : text := " 022142 SQUARE OF SIGNIFICANT WAVE HEIGHT                                M2                         3    -33554432  26 M2                        3         8".
Definition b7707 : text := " 022143 STD OF 20 HZ SWH SQUARED                                         M2                         3     -8388608  24 M2                        3         8".
Definition b7708 : text := " 022144 NUMBER OF 20 HZ VALID POINTS FOR SWH SQUARED                     NUMERIC                    0            0   9 NUMERIC                   0         3".
Definition b7709 : text := " 022145 STD OF 20 HZ OCEAN RANGE                                         M                          3    -33554432  31 M                         3        10".
Definition b7710 : text := " 022146 OCOG RANGE                                                       M                          3            0  31 M                         3        10".
Definition b7711 : text := " 022147 STD OF 20 HZ OCOG RANGE                                          M                          3     -8388608  31 M                         3        10".
Definition b7712 : text := " 022148 NUMBER OF 20 HZ VALID POINTS FOR OCEAN RANGE                     NUMERIC                    0            0   9 NUMERIC                   0         3".
Definition b7713 : text := " 022149 20 HZ SIGNIFICANT WAVE HEIGHT SQUARED                            M2                         3    -33554432  26 M2                        3         8".
Definition b7714 : text := " 022177 HEIGHT OF XBT/XCTD LAUNCHER                                      M                          0            0   6 M                         0         3".
Definition b7715 : text := " 022178 XBT/XCTD LAUNCHER TYPE                                           CODE TABLE 22178           0            0   8 CODE TABLE 22178          0         3".
Definition b7716 : text := " 022186 DIRECTION FROM WHICH WAVES ARE COMING                            DEG                        0            0   9 DEG                       0         3".
Definition b7717 : text := " 022188 DISSOLVED OXYGEN                                                 UMOL/KG                    3            0  19 UMOL/KG                   3         6".
Definition b7718 : text := " 022189 SPECIFIC BAND OCEAN RANGE                                        M                          3            0  31 M                         3        10".
Definition b7719 : text := " 022190 SPECIFIC BAND SIGNIFICANT WAVE HEIGHT                            M                          3            0  16 M                         3         5".
Definition b7720 : text := " 022191 RMS OF SPECIFIC BAND OCEAN RANGE                                 M                          4            0  16 M                         4         5".
Definition b7721 : text := " 023001 ACCIDENT EARLY NOTIFICATION - ARTICLE APPLICABLE                 CODE TABLE 23001           0            0   3 CODE TABLE 23001          0         1".
Definition b7722 : text := " 023027 MAIN TRANSPORT DIRECTION IN THE ATMOSPHERE                       DEG                        0            0   9 DEG                       0         3".
Definition b7723 : text := " 023028 MAIN TRANSPORT DIRECTION IN WATER                                DEG                        0            0   9 DEG                       0         3".
Definition b7724 : text := " 023029 MAIN TRANSPORT DIRECTION IN GROUND WATER                         DEG                        0            0   9 DEG                       0         3".
Definition b7725 : text := " 024001 ESTIMATE OF AMOUNT OF RADIOACTIVITY RELEASED UP TO SPECIFIED TIM BQ                       -11            0  28 BQ                      -11         9".
Definition b7726 : text := " 024002 ESTIMATED MAXIMUM POTENTIAL RELEASE                              BQ                       -11            0  28 BQ                      -11         9".
Definition b7727 : text := " 024011 DOSE                                                             MSV                        2            0  32 MSV                       2        10".
Definition b7728 : text := " 024012 TRAJECTORY DOSE (DEFINED LOCATION AND EXPECTED TIME OF ARRIVAL)  MSV                        2            0  32 MSV                       2        10".
Definition b7729 : text := " 024013 GAMMA DOSE IN AIR ALONG THE MAIN TRANSPORT PATH (DEFINED LOCATIO MSV                        2            0  32 MSV                       2        10".
Definition b7730 : text := " 024021 AIR CONCENTRATION (OF NAMED ISOTOPE TYPE INCLUDING GROSS BETA)   BQ M-3                     2            0  32 BQ M-3                    2        10".
Definition b7731 : text := " 024022 CONCENTRATION IN PRECIPITATION (OF NAMED ISOTOPE TYPE)           BQ/L                       2            0  32 BQ/L                      2        10".
Definition b7732 : text := " 025016 CLEAR-AIR ATTENUATION CORRECTION                                 DB/M                       5            0   6 DB/M                      5         2".
Definition b7733 : text := " 025022 GHRSST* REJECTION FLAG                                           FLAG TABLE 25022           0            0   9 FLAG TABLE 25022          0         3".
Definition b7734 : text := " 025023 GHRSST CONFIDENCE FLAG                                           FLAG TABLE 25023           0            0   9 FLAG TABLE 25023          0         3".
Definition b7735 : text := " 025024 GHRSST DATA QUALITY                                              CODE TABLE 25024           0            0   4 CODE TABLE 25024          0         2".
Definition b7736 : text := " 025031 NWP-GENERATED VERTICAL PROFILE THINNING METHOD                   CODE TABLE 25031           0            0   3 CODE TABLE 25031          0         1".
Definition b7737 : text := " 025033 WIND PROFILER SUBMODE INFORMATION                                CODE TABLE 25033           0            0   2 CODE TABLE 25033          0         1".
Definition b7738 : text := " 025034 WIND PROFILER QUALITY CONTROL TEST RESULTS                       FLAG TABLE 25034           0            0   4 FLAG TABLE 25034          0         2".
Definition b7739 : text := " 025035 DECISION METHOD FOR POLARITY                                     CODE TABLE 25035           0            0   3 CODE TABLE 25035          0         1".
Definition b7740 : text := " 025052 LOG10 OF PRINCIPAL COMPONENTS NORMALIZED FIT TO DATA             NUMERIC                    4            0  15 NUMERIC                   4         5".
Definition b7741 : text := " 025063 CENTRAL PROCESSOR OR SYSTEM IDENTIFIER                           CODE TABLE 25063           0            0   8 CODE TABLE 25063          0         3".
Definition b7742 : text := " 025076 LOG10 OF (TEMPERATURE-RADIANCE CENTRAL WAVE NUMBER) FOR ATOVS    LOG (M-1)                  8            0  30 LOG (M-1)                 8        10".
Definition b7743 : text := " 025077 BANDWIDTH CORRECTION COEFFICIENT 1                               NUMERIC                    5      -100000  18 NUMERIC                   5         7".
Definition b7744 : text := " 025078 BANDWIDTH CORRECTION COEFFICIENT 2                               NUMERIC                    5            0  17 NUMERIC                   5         6".
Definition b7745 : text := " 025079 ALBEDO-RADIANCE SOLAR FILTERED IRRADIANCE FOR ATOVS              W M-2                      4            0  24 W M-2                     4         8".
Definition b7746 : text := " 025091 STRUCTURE CONSTANT OF THE REFRACTION INDEX (CN2)                 DB                         3       -18192  13 DB                        3         5".
Definition b7747 : text := " 025097 THREE-DIMENSIONAL ERROR ESTIMATE OF THE NAVIGATOR ORBIT          CODE TABLE 25097           0            0   4 CODE TABLE 25097          0         2".
Definition b7748 : text := " 025099 ALTIMETER CORRECTION QUALITY FLAG                                FLAG TABLE 25099           0            0   9 FLAG TABLE 25099          0         3".
Definition b7749 : text := " 025110 IMAGE PROCESSING SUMMARY                                         FLAG TABLE 25110           0            0  10 FLAG TABLE 25110          0         4".
Definition b7750 : text := " 025112 BAND SPECIFIC ALTIMETER DATA QUALITY FLAG                        FLAG TABLE 25112           0            0   9 FLAG TABLE 25112          0         3".
Definition b7751 : text := " 025113 BAND SPECIFIC ALTIMETER CORRECTION QUALITY FLAG                  FLAG TABLE 25113           0            0   9 FLAG TABLE 25113          0         3".
Definition b7752 : text := " 025124 MWR-L2-PROCESSING FLAG                                           CODE TABLE 25124           0            0   2 CODE TABLE 25124          0         1".
Definition b7753 : text := " 025148 COEFFICIENT OF VARIATION                                         NUMERIC                    2       -10000  15 NUMERIC                   2         5".
Definition b7754 : text := " 025149 OPTIMAL ESTIMATION COST                                          NUMERIC                    0            0   8 NUMERIC                   0         3".
Definition b7755 : text := " 025150 METHOD OF TROPICAL CYCLONE INTENSITY ANALYSIS USING SATELLITE DA CODE TABLE 25150           0            0   4 CODE TABLE 25150          0         2".
Definition b7756 : text := " 025165 IONOSPHERIC CORRECTION FROM MODEL ON SPECIFIC BAND               M                          4       -32768  16 M                         4         5".
Definition b7757 : text := " 025166 SEA STATE BIAS CORRECTION ON SPECIFIC BAND                       M                          4       -32768  16 M                         4         5".
Definition b7758 : text := " 025167 SPECIFIC BAND NET INSTRUMENTAL CORRECTION                        M                          4      -120000  18 M                         4         6".
Definition b7759 : text := " 025180 LRM* PER CENT                                                    %                          2            0  16 %                         2         5".
Definition b7760 : text := " 025181 L2 PROCESSING FLAG                                               CODE TABLE 25181           0            0   2 CODE TABLE 25181          0         1".
Definition b7761 : text := " 025182 L1 PROCESSING FLAG                                               CODE TABLE 25182           0            0   2 CODE TABLE 25182          0         1".
Definition b7762 : text := " 025183 L1 PROCESSING QUALITY                                            %                          2            0  14 %                         2         5".
Definition b7763 : text := " 025184 L2 PRODUCT STATUS                                                CODE TABLE 25184           0            0   2 CODE TABLE 25184          0         1".
Definition b7764 : text := " 025185 ENCRYPTION METHOD                                                CODE TABLE 25185           0            0   8 CODE TABLE 25185          0         3".
Definition b7765 : text := " 025186 ENCRYPTION KEY VERSION                                           CCITTIA5                   0            0  96 CHARACTER                 0        12".
Definition b7766 : text := " 025187 CONFIDENCE FLAG                                                  CODE TABLE 25187           0            0   4 CODE TABLE 25187          0         2".
Definition b7767 : text := " 025188 METHOD FOR REDUCING PRESSURE TO SEA LEVEL                        CODE TABLE 25188           0            0   5 CODE TABLE 25188          0         2".
Definition b7768 : text := " 025189 RANGE CUT-OFF WAVELENGTH                                         M                          0            1   9 M                         0         3".
Definition b7769 : text := " 025190 ALTIMETER ECHO PROCESSING MODE                                   CODE TABLE 25190           0            0   8 CODE TABLE 25190          0         3".
Definition b7770 : text := " 025191 ALTIMETER TRACKING MODE                                          CODE TABLE 25191           0            0   8 CODE TABLE 25191          0         3".
Definition b7771 : text := " 026021 YEAR                                                             A                          0            0  12 A                         0         4".
Definition b7772 : text := " 026022 MONTH                                                            MON                        0            0   4 MON                       0         2".
Definition b7773 : text := " 026023 DAY                                                              D                          0            0   6 D                         0         2".
Definition b7774 : text := " 027079 HORIZONTAL WIDTH OF SAMPLED VOLUME                               M                          0            0  18 M                         0         6".
Definition b7775 : text := " 027080 VIEWING AZIMUTH ANGLE                                            DEG                        2            0  16 DEG                       0         5".
Definition b7776 : text := " 029002 COORDINATE GRID TYPE                                             CODE TABLE 29002           0            0   3 CODE TABLE 29002          0         1".
Definition b7777 : text := " 029014 OPTIONAL LIST OF PARAMETERS FOR AN EXTERNAL MAP PROJECTION LIBRA CCITTIA5                   0            0 504 CHARACTER                 0        63".
Definition b7778 : text := " 031031 DATA PRESENT INDICATOR                                           FLAG TABLE 31031           0            0   1 ".
Definition b7779 : text := " 033015 DATA QUALITY-CHECK INDICATOR                                     CODE TABLE 33015           0            0   6 CODE TABLE 33015          0         2".
Definition b7780 : text := " 033025 ACARS INTERPOLATED VALUES INDICATOR                              CODE TABLE 33025           0            0   3 CODE TABLE 33025          0         1".
Definition b7781 : text := " 033028 SNAPSHOT OVERALL QUALITY                                         CODE TABLE 33028           0            0   3 CODE TABLE 33028          0         1".
Definition b7782 : text := " 033060 GQISFLAGQUAL - INDIVIDUAL IASI-SYSTEM QUALITY FLAG               CODE TABLE 33060           0            0   2 CODE TABLE 33060          0         1".
Definition b7783 : text := " 033066 AMV QUALITY FLAG                                                 FLAG TABLE 33066           0            0  24 FLAG TABLE 33066          0         8".
Definition b7784 : text := " 033075 SCAN-LEVEL QUALITY FLAGS                                         FLAG TABLE 33075           0            0  13 FLAG TABLE 33075          0         5".
Definition b7785 : text := " 033076 CALIBRATION QUALITY FLAGS                                        FLAG TABLE 33076           0            0   9 FLAG TABLE 33076          0         3".
Definition b7786 : text := " 033077 FIELD-OF-VIEW QUALITY FLAGS                                      FLAG TABLE 33077           0            0  19 FLAG TABLE 33077          0         7".
Definition b7787 : text := " 033079 GRANULE LEVEL QUALITY FLAGS                                      FLAG TABLE 33079           0            0  16 FLAG TABLE 33079          0         6".
Definition b7788 : text := " 033080 SCAN LEVEL QUALITY FLAGS                                         FLAG TABLE 33080           0            0  20 FLAG TABLE 33080          0         7".
Definition b7789 : text := " 033081 CHANNEL DATA QUALITY FLAGS                                       FLAG TABLE 33081           0            0  12 FLAG TABLE 33081          0         4".
Definition b7790 : text := " 033082 GEOLOCATION QUALITY FLAGS                                        FLAG TABLE 33082           0            0  16 FLAG TABLE 33082          0         6".
Definition b7791 : text := " 033083 RADIANCE DATA QUALITY FLAGS                                      FLAG TABLE 33083           0            0  16 FLAG TABLE 33083          0         6".
Definition b7792 : text := " 033084 PIXEL LEVEL QUALITY FLAGS                                        FLAG TABLE 33084           0            0  16 FLAG TABLE 33084          0         6".
Definition b7793 : text := " 033085 AEROSOL OPTICAL THICKNESS QUALITY FLAGS                          FLAG TABLE 33085           0            0  18 FLAG TABLE 33085          0         6".
Definition b7794 : text := " 033086 QUALITY OF PIXEL LEVEL RETRIEVAL                                 CODE TABLE 33086           0            0   3 CODE TABLE 33086          0         1".
Definition b7795 : text := " 033087 EXTENT OF SATELLITE WITHIN SOUTH ATLANTIC ANOMALY (BASED ON CLIM CODE TABLE 33087           0            0   4 CODE TABLE 33087          0         1".
Definition b7796 : text := " 033088 OZONE TOTAL COLUMN QUALITY FLAG                                  FLAG TABLE 33088           0            0  18 FLAG TABLE 33088          0         6".
Definition b7797 : text := " 033089 NOISE EQUIVALENT DELTA TEMPERATURE (NEDT) QUALITY INDICATORS FOR K                          2            0  12 K                         2         4".
Definition b7798 : text := " 033090 NEDT QUALITY INDICATORS FOR COLD TARGET CALIBRATION              K                          2            0  12 K                         2         4".
Definition b7799 : text := " 033091 NEDT QUALITY INDICATORS FOR OVERALL CALIBRATION                  K                          2            0  12 K                         2         4".
Definition b7800 : text := " 033092 BAND SPECIFIC OCEAN QUALITY FLAG                                 FLAG TABLE 33092           0            0   9 FLAG TABLE 33092          0         3".
Definition b7801 : text := " 035001 TIME FRAME FOR MONITORING                                        CODE TABLE 35001           0            0   3 CODE TABLE 35001          0         1".
Definition b7802 : text := " 040005 SOIL MOISTURE CORRECTION FLAG                                    FLAG TABLE 40005           0            0   8 FLAG TABLE 40005          0         3".
Definition b7803 : text := " 040006 SOIL MOISTURE PROCESSING FLAG                                    FLAG TABLE 40006           0            0  16 FLAG TABLE 40006          0         6".
Definition b7804 : text := " 040013 RADIOMETER BRIGHTNESS TEMPERATURE INTERPRETATION FLAG            CODE TABLE 40013           0            0   3 CODE TABLE 40013          0         1".
Definition b7805 : text := " 040015 NORMALIZED DIFFERENTIAL VEGETATION INDEX (NDVI)                  NUMERIC                    2         -100   8 NUMERIC                   2         3".
Definition b7806 : text := " 040017 NON-NORMALIZED PRINCIPAL COMPONENT SCORE                         NUMERIC                    0  -1073741824  31 NUMERIC                   0        10".
Definition b7807 : text := " 040018 GIACAVGIMAGIIS - AVERAGE OF IMAGER MEASUREMENTS                  W M-2 SR-1 M               6            0  24 W M-2 SR-1 M              6         8".
Definition b7808 : text := " 040019 GIACVARIMAGIIS - VARIANCE OF IMAGER MEASUREMENTS                 W M-2 SR-1 M               6            0  24 W M-2 SR-1 M              6         8".
Definition b7809 : text := " 040020 GQISFLAGQUALDETAILED - QUALITY FLAG FOR THE SYSTEM               FLAG TABLE 40020           0            0  17 FLAG TABLE 40020          0         6".
Definition b7810 : text := " 040023 AUXILIARY ALTIMETER STATE FLAGS                                  FLAG TABLE 40023           0            0   5 FLAG TABLE 40023          0         2".
Definition b7811 : text := " 040024 METEOROLOGICAL MAP AVAILABILITY                                  CODE TABLE 40024           0            0   3 CODE TABLE 40024          0         1".
Definition b7812 : text := " 040025 INTERPOLATION FLAG FOR MEAN DIURNAL TIDE                         CODE TABLE 40025           0            0   2 CODE TABLE 40025          0         1".
Definition b7813 : text := " 040027 SUN GLINT ANGLE                                                  DEG                        2       -18000  16 DEG                       2         5".
Definition b7814 : text := " 040028 GMI QUALITY FLAG                                                 CODE TABLE 40028           0            0   4 CODE TABLE 40028          0         2".
Definition b7815 : text := " 040029 HORIZONTAL OBSERVATION INTEGRATION LENGTH                        M                          0            0  26 M                         0         8".
Definition b7816 : text := " 040030 HORIZONTAL LINE OF SIGHT WIND                                    M/S                        2       -32767  16 M/S                       2         5".
Definition b7817 : text := " 040031 ERROR ESTIMATE OF HORIZONTAL LINE OF SIGHT WIND                  M/S                        2            0  15 M/S                       2         5".
Definition b7818 : text := " 040032 DERIVATIVE WIND TO PRESSURE                                      M S-1 PA-1                 3      -100000  18 M S-1 PA-1                3         6".
Definition b7819 : text := " 040033 DERIVATIVE WIND TO TEMPERATURE                                   M S-1 K-1                  3      -100000  18 M S-1 K-1                 3         6".
Definition b7820 : text := " 040034 DERIVATIVE WIND TO BACKSCATTER RATIO                             M/S                        3      -200000  19 M/S                       3         6".
Definition b7821 : text := " 040035 SATELLITE RANGE                                                  M                          0       380000  18 M                         0         6".
Definition b7822 : text := " 040036 LIDAR L2B CLASSIFICATION TYPE                                    CODE TABLE 40036           0            0   4 CODE TABLE 40036          0         2".
Definition b7823 : text := " 040037 BACKSCATTER RATIO                                                NUMERIC                    3          500  20 NUMERIC                   3         7".
Definition b7824 : text := " 040038 CLOUD PARTICLE SIZE                                              M                          7            0  28 M                         7         6".
Definition b7825 : text := " 040039 SINGLE LOOK COMPLEX IMAGE INTENSITY                              NUMERIC                    0          -25   5 NUMERIC                   0         3".
Definition b7826 : text := " 040040 SINGLE LOOK COMPLEX IMAGE SKEWNESS                               NUMERIC                    2            1  13 NUMERIC                   0         4".
Definition b7827 : text := " 040041 SINGLE LOOK COMPLEX IMAGE KURTOSIS                               NUMERIC                    2            1  13 NUMERIC                   0         4".
Definition b7828 : text := " 040042 SINGLE LOOK COMPLEX IMAGE VARIANCE                               NUMERIC                    2            1  13 NUMERIC                   0         4".
Definition b7829 : text := " 040043 SATELLITE MANOEUVRE INDICATOR                                    CODE TABLE 40043           0            0   3 CODE TABLE 40043          0         1".
Definition b7830 : text := " 040044 DUST INDEX                                                       NUMERIC                    1            0   8 NUMERIC                   1         3".
Definition b7831 : text := " 040045 CLOUD FORMATION AND HEIGHT ASSIGNMENT                            FLAG TABLE 40045           0            0   5 FLAG TABLE 40045          0         2".
Definition b7832 : text := " 040046 CLOUDINESS SUMMARY                                               CODE TABLE 40046           0            0   3 CODE TABLE 40046          0         1".
Definition b7833 : text := " 040047 VALIDATION FLAG FOR IASI OR IASI-NG LEVEL 1 PRODUCT              CODE TABLE 40047           0            0   3 CODE TABLE 40047          0         1".
Definition b7834 : text := " 040048 VALIDATION FLAG OF AMSU-A LEVEL 1 DATA FLOW                      CODE TABLE 40048           0            0   3 CODE TABLE 40048          0         1".
Definition b7835 : text := " 040049 CLOUD TESTS EXECUTED AND RESULTS                                 FLAG TABLE 40049           0            0  16 FLAG TABLE 40049          0         5".
Definition b7836 : text := " 040050 RETRIEVAL INITIALISATION                                         FLAG TABLE 40050           0            0   8 FLAG TABLE 40050          0         3".
Definition b7837 : text := " 040051 CONVERGENCE OF THE ITERATIVE RETRIEVAL                           CODE TABLE 40051           0            0   3 CODE TABLE 40051          0         1".
Definition b7838 : text := " 040052 INDICATION OF SUPER-ADIABATIC AND SUPER-SATURATION IN FINAL RETR FLAG TABLE 40052           0            0   8 FLAG TABLE 40052          0         3".
Definition b7839 : text := " 040053 NUMBER OF ITERATIONS USED FOR RETRIEVAL                          NUMERIC                    0            0   8 NUMERIC                   0         3".
Definition b7840 : text := " 040054 POTENTIAL PROCESSING AND INPUTS ERRORS                           FLAG TABLE 40054           0            0  13 FLAG TABLE 40054          0         4".
Definition b7841 : text := " 040055 DIAGNOSTICS ON THE RETRIEVAL                                     FLAG TABLE 40055           0            0  21 FLAG TABLE 40055          0         7".
Definition b7842 : text := " 040056 GENERAL RETRIEVAL QUALITY                                        CODE TABLE 40056           0            0   3 CODE TABLE 40056          0         1".
Definition b7843 : text := " 040057 IASI LEVEL 2 RETRIEVAL FLAGS                                     FLAG TABLE 40057           0            0  31 FLAG TABLE 40057          0        10".
Definition b7844 : text := " 040058 NUMBER OF VECTORS DESCRIBING THE CHARACTERIZATION MATRICES       NUMERIC                    0            0   8 NUMERIC                   0         3".
Definition b7845 : text := " 040059 NUMBER OF LAYERS ACTUALLY RETRIEVED                              NUMERIC                    0            0   8 NUMERIC                   0         3".
Definition b7846 : text := " 040060 NUMBER OF PROFILES RETRIEVED IN SCANLINE                         NUMERIC                    0            0   8 NUMERIC                   0         3".
Definition b7847 : text := " 040061 AIR PARTIAL COLUMNS ON EACH RETRIEVED LAYER                      MOL CM-2                   3            0  16 MOL CM-2                  3         5".
Definition b7848 : text := " 040062 A-PRIORI PARTIAL COLUMNS ON EACH RETRIEVED LAYER                 MOL CM-2                  10            0  16 MOL CM-2                 10         5".
Definition b7849 : text := " 040063 SCALING VECTOR MULTIPLYING THE A PRIORI CO VECTOR IN ORDER TO DE NUMERIC                    5            0  26 NUMERIC                   5         8".
Definition b7850 : text := " 040064 MAIN EIGENVALUES OF THE SENSITIVITY MATRIX                       NUMERIC                    6            0  31 NUMERIC                   6        10".
Definition b7851 : text := " 040065 MAIN EIGENVECTORS OF THE SENSITIVITY MATRIX                      NUMERIC                    6  -1000000000  31 NUMERIC                   6        10".
Definition b7852 : text := " 040066 QUALITY INDICATOR FOR ATMOSPHERIC WATER VAPOUR                   NUMERIC                    1            0   8 NUMERIC                   1         3".
Definition b7853 : text := " 040067 QUALITY INDICATOR FOR ATMOSPHERIC TEMPERATURE                    NUMERIC                    1            0   8 NUMERIC                   1         3".
Definition b7854 : text := " 040068 GENERAL RETRIEVAL QUALITY FLAG FOR SO2                           CODE TABLE 40068           0            0   4 CODE TABLE 40068          0         2".
Definition b7855 : text := " 040069 PWLR ESTIMATED RETRIEVAL ERROR FOR SURFACE AIR TEMPERATURE       K                          4     -1000000  21 K                         4         7".
Definition b7856 : text := " 040070 PWLR ESTIMATED RETRIEVAL ERROR OF SURFACE DEWPOINT               K                          4     -1000000  21 K                         4         7".
Definition b7857 : text := " 040071 RETRIEVAL ERROR COVARIANCE MATRIX FOR OZONE IN PRINCIPAL COMPONE NUMERIC                    4     -1000000  21 NUMERIC                   4         7".
Definition b7858 : text := " 040072 PWLR ESTIMATED RETRIEVAL QUALITY INDICATOR OF ATMOSPHERIC OZONE  NUMERIC                    1            0   8 NUMERIC                   1         3".
Definition b7859 : text := " 040073 PWLR ESTIMATED RETRIEVAL ERROR OF SURFACE SKIN TEMPERATURE       K                          1            0   8 K                         1         3".
Definition b7860 : text := " 041001 PCO2                                                             PA                         3            0  18 PA                        3         6".
Definition b7861 : text := " 041002 FLUORESCENCE                                                     KG L-1                    12            0  16 KG L-1                   12         5".
Definition b7862 : text := " 041003 DISSOLVED NITRATES                                               UMOL/KG                    3            0  17 UMOL/KG                   3         5".
Definition b7863 : text := " 041005 TURBIDITY                                                        NTU                        2            0  12 NTU                       2         4".
Definition b7864 : text := " 042001 DOMINANT SWELL WAVE DIRECTION OF SPECTRAL PARTITION              DEG                        0            0   9 DEG                       0         3".
Definition b7865 : text := " 042002 SIGNIFICANT SWELL WAVE HEIGHT OF SPECTRAL PARTITION              M                          1            0   9 M                         1         3".
Definition b7866 : text := " 042003 DOMINANT SWELL WAVELENGTH OF SPECTRAL PARTITION                  M                          2          100  17 M                         2         6".
Definition b7867 : text := " 042004 CONFIDENCE OF INVERSION FOR EACH PARTITION OF SWELL WAVE SPECTRA CODE TABLE 42004           0            0   4 CODE TABLE 42004          0         2".
Definition b7868 : text := " 042005 AMBIGUITY REMOVAL FACTOR FOR SWELL WAVE PARTITION                NUMERIC                    5      -100000  18 NUMERIC                   5         6".
Definition b7869 : text := " 042006 WAVE AGE                                                         NUMERIC                    2            1   8 NUMERIC                   2         3".
Definition b7870 : text := " 042007 SHORTEST OCEAN WAVELENGTH ON SPECTRAL RESOLUTION                 M                          2            0  16 M                         2         5".
Definition b7871 : text := " 042008 NONLINEAR INVERSE SPECTRAL WIDTH                                 M                          2            0  16 M                         2         5".
Definition b7872 : text := " 042009 BIN PARTITION REFERENCE                                          NUMERIC                    0            0   8 NUMERIC                   0         3".
Definition b7873 : text := " 042010 PARTITION NUMBER                                                 NUMERIC                    0            1   4 NUMERIC                   0         2".
Definition b7874 : text := " 042011 A1 COEFFICIENT OF THE DIRECTIONAL FOURIER SERIES                 NUMERIC                    4       -20000  15 NUMERIC                   4         6".
Definition b7875 : text := " 042012 B1 COEFFICIENT OF THE DIRECTIONAL FOURIER SERIES                 NUMERIC                    4       -20000  15 NUMERIC                   4         6".
Definition b7876 : text := " 042013 A2 COEFFICIENT OF THE DIRECTIONAL FOURIER SERIES                 NUMERIC                    4       -20000  15 NUMERIC                   4         6".
Definition b7877 : text := " 042014 B2 COEFFICIENT OF THE DIRECTIONAL FOURIER SERIES                 NUMERIC                    4       -20000  15 NUMERIC                   4         6".
Definition b7878 : text := " 042015 CHECK FACTOR K                                                   NUMERIC                    2            0  12 NUMERIC                   2         4".
Definition b7879 : text := cr " 000001 TABLE A: ENTRY                                                   CCITTIA5                   0            0  24  ".
Definition b7880 : text := cr " 000002 TABLE A: DATA CATEGORY DESCRIPTION, LINE 1                       CCITTIA5                   0            0 256  ".
Definition b7881 : text := cr " 000003 TABLE A: DATA CATEGORY DESCRIPTION, LINE 2                       CCITTIA5                   0            0 256  ".
Definition b7882 : text := cr " 000005 BUFR EDITION NUMBER                                              CCITTIA5                   0            0  24  ".
Definition b7883 : text := cr " 000010 F DESCRIPTOR TO BE ADDED OR DEFINED                              CCITTIA5                   0            0   8  ".
Definition b7884 : text := cr " 000011 X DESCRIPTOR TO BE ADDED OR DEFINED                              CCITTIA5                   0            0  16  ".
Definition b7885 : text := cr " 000012 Y DESCRIPTOR TO BE ADDED OR DEFINED                              CCITTIA5                   0            0  24  ".
Definition b7886 : text := cr " 000013 ELEMENT NAME, LINE 1                                             CCITTIA5                   0            0 256  ".
Definition b7887 : text := cr " 000014 ELEMENT NAME, LINE 2                                             CCITTIA5                   0            0 256  ".
Definition b7888 : text := cr " 000015 UNITS NAME                                                       CCITTIA5                   0            0 192  ".
Definition b7889 : text := cr " 000016 UNITS SCALE SIGN                                                 CCITTIA5                   0            0   8  ".
Definition b7890 : text := cr " 000017 UNITS SCALE                                                      CCITTIA5                   0            0  24  ".
Definition b7891 : text := cr " 000018 UNITS REFERENCE SIGN                                             CCITTIA5                   0            0   8  ".
Definition b7892 : text := cr " 000019 UNITS REFERENCE VALUE                                            CCITTIA5                   0            0  80  ".
Definition b7893 : text := cr " 000020 ELEMENT DATA WIDTH                                               CCITTIA5                   0            0  24  ".
Definition b7894 : text := cr " 000030 DESCRIPTOR DEFINING SEQUENCE                                     CCITTIA5                   0            0  48  ".
Definition b7895 : text := cr " 001001 WMO BLOCK NUMBER                                                 NUMERIC                    0            0   7  ".
Definition b7896 : text := cr " 001002 WMO STATION NUMBER                                               NUMERIC                    0            0  10  ".
Definition b7897 : text := cr " 001003 WMO REGION NUMBER/GEOGRAPHICAL AREA                              CODE TABLE   1003          0            0   3  ".
Definition b7898 : text := cr " 001004 WMO REGION SUB-AREA                                              NUMERIC                    0            0   3  ".
Definition b7899 : text := cr " 001005 BUOY/PLATFORM IDENTIFIER                                         NUMERIC                    0            0  17  ".
Definition b7900 : text := cr " 001006 AIRCRAFT FLIGHT NUMBER                                           CCITTIA5                   0            0  64  ".
Definition b7901 : text := cr " 001007 SATELLITE IDENTIFIER                                             CODE TABLE   1007          0            0  10  ".
Definition b7902 : text := cr " 001008 AIRCRAFT REGISTRATION NUMBER                                     CCITTIA5                   0            0  64  ".
Definition b7903 : text := cr " 001009 TYPE OF COMMERCIAL AIRCRAFT                                      CCITTIA5                   0            0  64  ".
Definition b7904 : text := cr " 001010 STATIONARY BUOY PLATFORM IDENTIFIER(C-MAN BUOYS)                 CCITTIA5                   0            0  64  ".
Definition b7905 : text := cr " 001011 SHIP OR MOBILE LAND STATION IDENTIFIER                           CCITTIA5                   0            0  72  ".
Definition b7906 : text := cr " 001012 DIRECTION OF MOTION OF MOVING OBSERVING PLATFORM                 DEGREE TRUE                0            0   9  ".
Definition b7907 : text := cr " 001013 SPEED OF MOTION OF MOVING OBSERVING PLATFORM                     M/S                        0            0  10  ".
Definition b7908 : text := cr " 001014 PLATFORM DRIFT SPEED(HIGH PRECISION                              M/S                        2            0  10  ".
Definition b7909 : text := cr " 001015 STATION OR SITE NAME                                             CCITTIA5                   0            0 160  ".
Definition b7910 : text := cr " 001020 WMO REGION SUB-AREA                                              NUMERIC                    0            0   4  ".
Definition b7911 : text := cr " 001021 SYNOPTIC FEATURE IDENTIFIER                                      NUMERIC                    0            0  14  ".
Definition b7912 : text := cr " 001022 NAME OF FEATURE                                                  CCITTIA5                   0            0 224".
Definition b7913 : text := cr " 001025 STORM IDENTIFIER                                                 CCITTIA5                   0            0  24  ".
Definition b7914 : text := cr " 001026 WMO STORM NAME                                                   CCITTIA5                   0            0  64  ".
Definition b7915 : text := cr " 001031 IDENTIFICATION OF ORIGINATING/GENERATING CENTRE                  CODE TABLE   1031          0            0  16  ".
Definition b7916 : text := cr " 001032 GENERATING APPLICATION                                           CODE TABLE   1032          0            0   8  ".
Definition b7917 : text := cr " 001033 IDENTIFICATION OF ORIGINATING/GENERATING CENTRE                  CODE TABLE   1033          0            0   8  ".
Definition b7918 : text := cr " 001034 IDENTIFICATION OF ORIGINATING/GENERATING SUB-CENTRE              CODE TABLE   1034          0            0   8  ".
Definition b7919 : text := cr " 001041 ABSOLUTE PLATFORM VELOCITY - FIRST COMPONENT                     M/S                        5  -1073741824  31  ".
Definition b7920 : text := cr " 001042 ABSOLUTE PLATFORM VELOCITY - SECOND COMPONENT                    M/S                        5  -1073741824  31  ".
Definition b7921 : text := cr " 001043 ABSOLUTE PLATFORM VELOCITY - THIRD COMPONENT                     M/S                        5  -1073741824  31  ".
Definition b7922 : text := cr " 001050 PLATFORM TRANSMITTER ID NUMBER                                   NUMERIC                    0            0  17  ".
Definition b7923 : text := cr " 001051 PLATFORM TRANSMITTER ID NUMBER                                   CCITTIA5                   0            0  96  ".
Definition b7924 : text := cr " 001060 AIRCRAFT REPORTING POINT(BEACON IDENTIFIER)                      CCITTIA5                   0            0  64  ".
Definition b7925 : text := cr " 001063 ICAO LOCATION INDICATOR                                          CCITTIA5                   0            0  64  ".
Definition b7926 : text := cr " 001064 RUNWAY DESIGNATOR                                                CCITTIA5                   0            0  32  ".
Definition b7927 : text := cr " 001075 TIDE STATION IDENTIFIER                                          CCITTIA5                   0            0  40  ".
Definition b7928 : text := cr " 002001 TYPE OF STATION                                                  CODE TABLE   2001          0            0   2  ".
Definition b7929 : text := cr " 002002 TYPE OF INSTRUMENTATION FOR WIND MEASUREMENT                     FLAG TABLE   2002          0            0   4  ".
Definition b7930 : text := cr " 002003 TYPE OF MEASURING EQUIPMENT USED                                 CODE TABLE   2003          0            0   4  ".
Definition b7931 : text := cr " 002004 TYPE OF INSTRUMENTATION FOR EVAPORATION MEASUEMENT               CODE TABLE   2004          0            0   4  ".
Definition b7932 : text := cr " 002005 PRECISION OF TEMPERATURE OBSERVATION                             K                          2            0   7  ".
Definition b7933 : text := cr " 002011 RADIOSONDE TYPE                                                  CODE TABLE   2011          0            0   8  ".
Definition b7934 : text := cr " 002012 RADIOSONDE COMPUTATIONAL METHOD                                  CODE TABLE   2012          0            0   4  ".
Definition b7935 : text := cr " 002013 SOLAR AND INFRARED RADIATION CORRECTION                          CODE TABLE   2013          0            0   4  ".
Definition b7936 : text := cr " 002014 TRACKING TECHNIQUE/STATUS OF SYSTEM USED                         CODE TABLE   2014          0            0   7  ".
Definition b7937 : text := cr " 002015 RADIOSONDE COMPLETENESS                                          CODE TABLE   2015          0            0   4  ".
Definition b7938 : text := cr " 002019 SATELLITE INSTRUMENTS                                            CODE TABLE   2019          0            0  11  ".
Definition b7939 : text := cr " 002020 SATELLITE CLASSIFICATION                                         CODE TABLE   2020          0            0   9  ".
Definition b7940 : text := cr " 002021 SATELLITE INSTRUMENT DATA USED IN PROCESSING                     FLAG TABLE   2021          0            0   9  ".
Definition b7941 : text := cr " 002022 SATELLITE DATA PROCESSING TECHNIQUE USED                         FLAG TABLE   2022          0            0   8  ".
Definition b7942 : text := cr " 002023 SATELLITE DERIVED WIND COMPUTATION METHOD                        CODE TABLE   2023          0            0   4  ".
Definition b7943 : text := cr " 002024 INTEGRATED MEAN HUMIDITY COMPUTATIONAL METHOD                    CODE TABLE   2024          0            0   4  ".
Definition b7944 : text := cr " 002025 SATELLITE CHANNEL(S) USED IN COMPUTATION                         FLAG TABLE   2025          0            0  25  ".
Definition b7945 : text := cr " 002026 CROSS TRACK RESOLUTION                                           M                          2            0  12  ".
Definition b7946 : text := cr " 002027 ALONG TRACK RESOLUTION                                           M                          2            0  12  ".
Definition b7947 : text := cr " 002028 SEGMENT SIZE AT NADIR IN X DIRECTION                             M                          0            0  18".
Definition b7948 : text := cr " 002029 SEGMENT SIZE AT NADIR IN Y DIRECTION                             M                          0            0  18".
Definition b7949 : text := cr " 002030 METHOD OF CURRENT MEASUREMENT                                    CODE TABLE   2030          0            0   3  ".
Definition b7950 : text := cr " 002031 DURATION AND TIME OF CURRENT MEASUREMENT                         CODE TABLE   2031          0            0   5  ".
Definition b7951 : text := cr " 002032 INDICATOR FOR DIGITIZATION                                       CODE TABLE   2032          0            0   2  ".
Definition b7952 : text := cr " 002033 METHOD OF SALINITY/DEPTH MEASUREMENT                             CODE TABLE   2033          0            0   3  ".
Definition b7953 : text := cr " 002034 DROGUE TYPE                                                      CODE TABLE   2034          0            0   5  ".
Definition b7954 : text := cr " 002035 CABLE LENGTH                                                     M                          0            0   9  ".
Definition b7955 : text := cr " 002036 BUOY TYPE                                                        CODE TABLE   2036          0            0   2  ".
Definition b7956 : text := cr " 002037 METHOD OF TIDAL OBSERVATION                                      CODE TABLE   2037          0            0   3  ".
Definition b7957 : text := cr " 002038 METHOD OF SEA-SURFACE TEMPERATURE MEASUREMENT                    CODE TABLE   2038          0            0   4  ".
Definition b7958 : text := cr " 002039 METHOD OF WET-BULB TEMPERATURE MEASUREMENT                       CODE TABLE   2039          0            0   3  ".
Definition b7959 : text := cr " 002040 METHOD OF REMOVING VELOCITY AND MOTION OF PLATFORM FROM CURRENT  CODE TABLE   2040          0            0   4  ".
Definition b7960 : text := cr " 002041 METHOD FOR ESTIMATING REPORTS RELATED TO SYNOPTIC FEATURES       CODE TABLE   2041          0            0   6  ".
Definition b7961 : text := cr " 002044 INDICATOR FOR METHOD OF CALCULATING SPECTRAL WAVE METHOD         CODE TABLE   2044          0            0   4  ".
Definition b7962 : text := cr " 002045 INDICATOR FOR TYPE OF PLATFORM                                   CODE TABLE   2045          0            0   4  ".
Definition b7963 : text := cr " 002046 WAVE MEASUREMENT INSTRUMENTATION                                 CODE TABLE   2046          0            0   4  ".
Definition b7964 : text := cr " 002048 SATELLITE SENSOR INDICATOR                                       CODE TABLE   2048          0            0   4  ".
Definition b7965 : text := cr " 002049 GEOSTATIONARY SATELLITE DATA-PROCESSING TECHNIQUE USED           FLAG TABLE   2049          0            0   8  ".
Definition b7966 : text := cr " 002050 GEOSTATIONARY SOUNDER SATELLITE CHANNELS USED                    FLAG TABLE   2050          0            0  20  ".
Definition b7967 : text := cr " 002051 INDICATOR TO SPECIFY OBSERVING METHOD FOR EXTREME TEMPERATURES   CODE TABLE   2051          0            0   4  ".
Definition b7968 : text := cr " 002052 GEOSTATIONARY IMAGER SATELLITE CHANNELS USED                     FLAG TABLE   2052          0            0   6  ".
Definition b7969 : text := cr " 002053 GOES-I/M BRIGHTNESS TEMPERATURE CHARACTERISTICS                  CODE TABLE   2053          0            0   4  ".
Definition b7970 : text := cr " 002054 GOES-I/M SOUNDINGS PARAMETER CHARACTERISTICS                     CODE TABLE   2054          0            0   4  ".
Definition b7971 : text := cr " 002055 GEOSTATIONARY SOUNDINGS STATISTICAL PARAMETERS                   CODE TABLE   2055          0            0   4  ".
Definition b7972 : text := cr " 002056 GEOSTATIONARY SOUNDINGS ACCURACYSTATISTICS                       CODE TABLE   2056          0            0   4  ".
Definition b7973 : text := cr " 002057 ORIGIN OF FIRST GUESS INFORMATION                                CODE TABLE   2057          0            0   4  ".
Definition b7974 : text := cr " 002058 VALID TIMES OF FIRST GUESS INFORMATION FOR GOES-I/M SOUNDINGS    CODE TABLE   2058          0            0   4  ".
Definition b7975 : text := cr " 002059 ORIGIN OF ANALYSIS INFORMATION FOR GOES-I/M SOUNDINGS            CODE TABLE   2059          0            0   4  ".
Definition b7976 : text := cr " 002060 ORIGIN OF SURFACE INFORMATION FOR GOES-I/M SOUNDINGS             CODE TABLE   2060          0            0   4  ".
Definition b7977 : text := cr " 002061 AIRCRAFT NAVIGATIONAL SYSTEM                                     CODE TABLE   2061          0            0   3  ".
Definition b7978 : text := cr " 002062 TYPE OF AIRCRAFT DATA RELAY SYSTEM                               CODE TABLE   2062          0            0   4  ".
Definition b7979 : text := cr " 002063 AIRCRAFT ROLL ANGLE                                              DEGREE                     2       -18000  16  ".
Definition b7980 : text := cr " 002064 AIRCRAFT ROLL ANGLE QUALITY                                      CODE TABLE   2064          0            0   2".
Definition b7981 : text := cr " 002065 ACARS GROUND RECEIVING STATION                                   CCITTIA5                   0            0  40".
Definition b7982 : text := cr " 002070 ORIGINAL SPECIFICATION OF LATITUDE/LONGITUDE                     CODE TABLE   2070          0            0   4  ".
Definition b7983 : text := cr " 002100 RADAR CONSTANT                                                   dB                         1            0  12  ".
Definition b7984 : text := cr " 002101 TYPE OF ANTENNA                                                  CODE TABLE   2101          0            0   4  ".
Definition b7985 : text := cr " 002102 ANTENNA HEIGHT ABOVE TOWER BASE                                  M                          0            0   8  ".
Definition b7986 : text := cr " 002103 RADOME                                                           FLAG TABLE   2103          0            0   2  ".
Definition b7987 : text := cr " 002104 ANTENNA POLARISATION                                             CODE TABLE   2104          0            0   4  ".
Definition b7988 : text := cr " 002105 MAXIMUM ANTENNA GAIN                                             dB                         0            0   6  ".
Definition b7989 : text := cr " 002106 3-dB BEAMWIDTH                                                   DEGREE                     1            0   6  ".
Definition b7990 : text := cr " 002107 SIDELOBE SUPPRESSION                                             dB                         0            0   6  ".
Definition b7991 : text := cr " 002108 CROSSPOL DISCRIMINATION(ON AXIS)                                 dB                         0            0   6  ".
Definition b7992 : text := cr " 002109 ANTENNA SPEED(AZIMUTH)                                           DEGREE/S                   2            0  12  ".
Definition b7993 : text := cr " 002110 ANTENNA SPEED(ELEVATION)                                         DEGREE/S                   2            0  12  ".
Definition b7994 : text := cr " 002111 RADAR INCIDENCE ANGLE                                            DEGREE                     1            0  10  ".
Definition b7995 : text := cr " 002112 RADAR LOOK ANGLE                                                 DEGREE                     1            0  12  ".
Definition b7996 : text := cr " 002113 NUMBER OF AZIMUTH LOOKS                                          NUMERIC                    0            0   4  ".
Definition b7997 : text := cr " 002114 ANTENNA EFFECTIVE SURFACE AREA                                   M**2                       0            0  15  ".
Definition b7998 : text := cr " 002121 MEAN FREQUENCY                                                   Hz                        -8            0   7  ".
Definition b7999 : text := cr " 002122 FREQUENCY AGILITY RANGE                                          Hz                        -6         -128   8  ".
Definition b8000 : text := cr " 002123 PEAK POWER                                                       W                         -4            0   7  ".
Definition b8001 : text := cr " 002124 AVERAGE POWER                                                    W                         -1            0   7  ".
Definition b8002 : text := cr " 002125 PULSE REPETITION FREQUENCY                                       Hz                        -1            0   8  ".
Definition b8003 : text := cr " 002126 PULSE WIDTH                                                      S                          7            0   6  ".
Definition b8004 : text := cr " 002127 RECEIVER INTERMEDIATE FREQUENCY                                  Hz                        -6            0   7  ".
Definition b8005 : text := cr " 002128 INTERMEDIATE FREQUENCY BANDWIDTH                                 Hz                        -5            0   6  ".
Definition b8006 : text := cr " 002129 MINIMUM DETECTABLE SIGNAL                                        dB                         0         -150   5  ".
Definition b8007 : text := cr " 002130 DYNAMIC RANGE                                                    dB                         0            0   7  ".
Definition b8008 : text := cr " 002131 SENSITIVITY TIME CONTROL                                         FLAG TABLE   2131          0            0   2  ".
Definition b8009 : text := cr " 002132 AZIMUTH POINTING ACCURACY                                        DEGREE                     2            0   6  ".
Definition b8010 : text := cr " 002133 ELEVATION POINTING ACCURACY                                      DEGREE                     2            0   6  ".
Definition b8011 : text := cr " 002134 ANTENNA BEAM AZIMUTH                                             DEGREE                     2            0  16  ".
Definition b8012 : text := cr " 002135 ANTENNA ELEVATION                                                DEGREE                     2        -9000  15  ".
Definition b8013 : text := cr " 002136 RANGE PROCESSED BY RANGE ATTENUATION CORRECTION                  M                         -3            0  16  ".
Definition b8014 : text := cr " 002140 SATELLITE RADAR BEAM AZIMUTH ANGLE                               DEGREE                     0            0   9  ".
Definition b8015 : text := cr " 002141 MEASUREMENT TYPE                                                 CCITTIA5                   0            0  24  ".
Definition b8016 : text := cr " 002142 OZONE INSTRUMENT SERIAL NUMBER/IDENTIFICATION                    CCITTIA5                   0            0  32  ".
Definition b8017 : text := cr " 002143 OZON INSTRUMENT TYPE                                             CODE TABLE   2143          0            0   7  ".
Definition b8018 : text := cr " 002144 LIGHT SOURCE TYPE FOR BREWER SPECTROPHOTOMETER                   CODE TABLE   2144          0            0   4  ".
Definition b8019 : text := cr " 002145 WAVE LENGTH SETTING FOR DOBSON INSTRUMENTS                       CODE TABLE   2145          0            0   4  ".
Definition b8020 : text := cr " 002146 SOURCE CONDITIONS FOR DOBSON INSTRUMENTS                         CODE TABLE   2146          0            0   4  ".
Definition b8021 : text := cr " 002148 DATA COLLECTION AND/OR LOCATION SYSTEM                           CODE TABLE 2148            0            0   5  ".
Definition b8022 : text := cr " 002149 TYPE OF DATA BUOY                                                CODE TABLE 2149            0            0   6  ".
Definition b8023 : text := cr " 002150 TOVS/ATOVS/HIRS INSTRUMENT CHANNEL NUMBER                        CODE TABLE   2150          0            0   6  ".
Definition b8024 : text := cr " 002151 RADIOMETER IDENTIFIER                                            CODE TABLE   2151          0            0  11  ".
Definition b8025 : text := cr " 002152 SATELLITE INSTRUMENT DATA USED IN PROCESSING                     FLAG TABLE   2152          0            0  31  ".
Definition b8026 : text := cr " 002153 SATELLITE CHANNEL CENTRE FREQUENCY                               Hz                        -8            0  26  ".
Definition b8027 : text := cr " 002154 SATELLITE CHANNEL BAND WIDTH                                     Hz                        -8            0  26  ".
Definition b8028 : text := cr " 002163 HEIGHT ASSIGNMENT METHOD                                         CODE TABLE   2163          0            0   4  ".
Definition b8029 : text := cr " 002164 TRACER CORRELATION METHOD                                        CODE TABLE   2164          0            0   3".
Definition b8030 : text := cr " 002166 RADIANCE TYPE                                                    CODE TABLE   2166          0            0   4  ".
Definition b8031 : text := cr " 002167 RADIANCE COMPUTATIONAL METHOD                                    CODE TABLE   2167          0            0   4".
Definition b8032 : text := cr " 002168 HYDROSTATIC PRESSURE OF LOWER END OF CABLE (THERMISTOR STRING)   PA                        -3            0  16  ".
Definition b8033 : text := cr " 002169 ANEMOMETER TYPE                                                  CODE TABLE 2169            0            0   4  ".
Definition b8034 : text := cr " 002190 LAGRANGIAN DRIFTER SUBMERGENCE (% TIME SUBMERGED)                %                          0            0   7  ".
Definition b8035 : text := cr " 004001 YEAR                                                             YEAR                       0            0  12  ".
Definition b8036 : text := cr " 004002 MONTH                                                            MONTH                      0            0   4  ".
Definition b8037 : text := cr " 004003 DAY                                                              DAY                        0            0   6  ".
Definition b8038 : text := cr " 004004 HOUR                                                             HOUR                       0            0   5  ".
Definition b8039 : text := cr " 004005 MINUTE                                                           MINUTE                     0            0   6  ".
Definition b8040 : text := cr " 004006 SECOND                                                           SECOND                     0            0   6  ".
Definition b8041 : text := cr " 004011 TIME INCREMENT                                                   YEAR                       0        -1024  11  ".
Definition b8042 : text := cr " 004012 TIME INCREMENT                                                   MONTH                      0        -1024  11  ".
Definition b8043 : text := cr " 004013 TIME INCREMENT                                                   DAY                        0        -1024  11  ".
Definition b8044 : text := cr " 004014 TIME INCREMENT                                                   HOUR                       0        -1024  11  ".
Definition b8045 : text := cr " 004015 TIME INCREMENT                                                   MINUTE                     0        -2048  12  ".
Definition b8046 : text := cr " 004016 TIME INCREMENT                                                   SECOND                     0        -4096  13  ".
Definition b8047 : text := cr " 004021 TIME PERIOD OR DISPLACEMENT                                      YEAR                       0        -1024  11  ".
Definition b8048 : text := cr " 004022 TIME PERIOD OR DISPLACEMENT                                      MONTH                      0        -1024  11  ".
Definition b8049 : text := cr " 004023 TIME PERIOD OR DISPLACEMENT                                      DAY                        0        -1024  11  ".
Definition b8050 : text := cr " 004024 TIME PERIOD OR DISPLACEMENT                                      HOUR                       0        -2048  12  ".
Definition b8051 : text := cr " 004025 TIME PERIOD OR DISPLACEMENT                                      MINUTE                     0        -2048  12  ".
Definition b8052 : text := cr " 004026 TIME PERIOD OR DISPLACEMENT                                      SECOND                     0        -4096  13  ".
Definition b8053 : text := cr " 004031 DURATION OF TIME RELATING TO FOLLOWING VALUE                     HOUR                       0            0   8  ".
Definition b8054 : text := cr " 004032 DURATION OF TIME RELATING TO FOLLOWING VALUE                     MINUTE                     0            0   6  ".
Definition b8055 : text := cr " 004041 TIME DIFFERENCE, UTC-LMT                                         MINUTE                     0        -1440  12  ".
Definition b8056 : text := cr " 004043 DAY OF THE YEAR                                                  DAY                        0            0   9  ".
Definition b8057 : text := cr " 004053 NUMBER OF DAYS WITH PRECIPITATION EQUAL TO OR MORE THAN 1 MM     NUMERIC                    0            0   6  ".
Definition b8058 : text := cr " 005001 LATITUDE (HIGH ACCURACY)                                         DEGREE                     5     -9000000  25  ".
Definition b8059 : text := cr " 005002 LATITUDE (COARSE ACCURACY)                                       DEGREE                     2        -9000  15  ".
Definition b8060 : text := cr " 005011 LATITUDE INCREMENT (HIGH ACCURACY)                               DEGREE                     5     -9000000  25  ".
Definition b8061 : text := cr " 005012 LATITUDE INCREMENT (COARSE ACCURACY)                             DEGREE                     2        -9000  15  ".
Definition b8062 : text := cr " 005021 BEARING OR AZIMUTH                                               DEGREE TRUE                2            0  16  ".
Definition b8063 : text := cr " 005022 SOLAR AZIMUTH                                                    DEGREE TRUE                2            0  16  ".
Definition b8064 : text := cr " 005030 DIRECTION (SPECTRAL)                                             DEGREE                     0            0  12  ".
Definition b8065 : text := cr " 005031 ROW NUMBER                                                       NUMERIC                    0            0  12  ".
Definition b8066 : text := cr " 005033 PIXEL SIZE ON HORIZONTAL-1                                       M                         -1            0  16  ".
Definition b8067 : text := cr " 005040 ORBIT NUMBER                                                     NUMERIC                    0            0  24  ".
Definition b8068 : text := cr " 005041 SCAN LINE NUMBER                                                 NUMERIC                    0            0   8  ".
Definition b8069 : text := cr " 005042 CHANNEL NUMBER                                                   NUMERIC                    0            0   6  ".
Definition b8070 : text := cr " 005043 FIELD OF VIEW NUMBER                                             NUMERIC                    0            0   8  ".
Definition b8071 : text := cr " 005052 CHANNEL NUMBER INCREMENT                                         NUMERIC                    0            0   5  ".
Definition b8072 : text := cr " 005053 FIELD OF VIEW NUMBER INCREMENT                                   NUMERIC                    0            0   5  ".
Definition b8073 : text := cr " 006001 LONGITUDE (HIGH ACCURACY)                                        DEGREE                     5    -18000000  26  ".
Definition b8074 : text := cr " 006002 LONGITUDE (COARSE ACCURACY)                                      DEGREE                     2       -18000  16  ".
Definition b8075 : text := cr " 006011 LONGITUDE INCREMENT (HIGH ACCURACY)                              DEGREE                     5    -18000000  26  ".
Definition b8076 : text := cr " 006012 LONGITUDE INCREMENT (COARSE ACCURACY)                            DEGREE                     2       -18000  16  ".
Definition b8077 : text := cr " 006021 DISTANCE                                                         M                         -1            0  13  ".
Definition b8078 : text := cr " 006030 WAVENUMBER (SPECTRAL)                                            RAD/M                      5            0  13  ".
Definition b8079 : text := cr " 006031 COLUMN NUMBER                                                    NUMERIC                    0            0  12  ".
Definition b8080 : text := cr " 006033 PIXEL SIZE ON HORIZONTAL-2                                       M                         -1            0  16  ".
Definition b8081 : text := cr " 007001 HEIGHT OF STATION                                                M                          0         -400  15  ".
Definition b8082 : text := cr " 007002 HEIGHT OR ALTITUDE                                               M                         -1          -40  16  ".
Definition b8083 : text := cr " 007003 GEOPOTENTIAL                                                     M**2/S**2                 -1         -400  17  ".
Definition b8084 : text := cr " 007004 PRESSURE                                                         PA                        -1            0  14  ".
Definition b8085 : text := cr " 007005 HEIGHT INCREMENT                                                 M                          0         -400  12  ".
Definition b8086 : text := cr " 007006 HEIGHT ABOVE STATION                                             M                          0            0  15  ".
Definition b8087 : text := cr " 007007 HEIGHT                                                           M                          0        -1000  17  ".
Definition b8088 : text := cr " 007008 GEOPOTENTIAL                                                     M**2/S**2                  0       -10000  20  ".
Definition b8089 : text := cr " 007021 ELEVATION                                                        DEGREE                     2        -9000  15  ".
Definition b8090 : text := cr " 007022 SOLAR ELEVATION                                                  DEGREE                     2        -9000  15  ".
Definition b8091 : text := cr " 007024 SATELLITE ZENITH ANGLE                                           DEGREE                     2        -9000  15  ".
Definition b8092 : text := cr " 007025 SOLAR ZENITH ANGLE                                               DEGREE                     2        -9000  15  ".
Definition b8093 : text := cr " 007030 HEIGHT OF STATION GROUND ABOVE MEAN SEA LEVEL (SEE NOTE 3)       M                          1       - 4000  17  ".
Definition b8094 : text := cr " 007031 HEIGHT OF BAROMETER ABOVE MEAN SEA LEVEL (SEE NOTE 4)            M                          1       - 4000  17  ".
Definition b8095 : text := cr " 007032 HEIGHT OF SENSOR ABOVE LOCAL GROUND (OR DECK OF MARINE PLATFORM) M                          2            0  16  ".
Definition b8096 : text := cr " 007033 HEIGHT OF SENSOR ABOVE WATER SURFACE (SEE NOTE 6)                M                          1            0  12  ".
Definition b8097 : text := cr " 007061 DEPTH BELOW LAND SURFACE                                         M                          2            0  14  ".
Definition b8098 : text := cr " 007062 DEPTH BELOW SEA/WATER SURFACE                                    M                          1            0  17  ".
Definition b8099 : text := cr " 007070 DROGUE DEPTH                                                     M                          0            0  10  ".
Definition b8100 : text := cr " 007190 HEIGHT INCREMENT                                                 M                          1        -1024  12  ".
Definition b8101 : text := cr " 008001 VERTICAL SOUNDING SIGNIFICANCE                                   FLAG TABLE   8001          0            0   7  ".
Definition b8102 : text := cr " 008002 VERTICAL SIGNIFICANCE (SURFACE OBSERVATIONS)                     CODE TABLE   8002          0            0   6  ".
Definition b8103 : text := cr " 008003 VERTICAL SIGNIFICANCE (SATELLITE OBSERVATIONS)                   CODE TABLE   8003          0            0   6  ".
Definition b8104 : text := cr " 008004 PHASE OF AIRCRAFT FLIGHT                                         CODE TABLE   8004          0            0   3  ".
Definition b8105 : text := cr " 008005 METEOROLOGICAL ATTRIBUTE SIGNIFICANCE                            CODE TABLE   8005          0            0   4  ".
Definition b8106 : text := cr " 008007 DIMENSIONAL SIGNIFICANCE                                         CODE TABLE   8007          0            0   4".
Definition b8107 : text := cr " 008011 METEOROLOGICAL FEATURE                                           CODE TABLE   8011          0            0   6  ".
Definition b8108 : text := cr " 008012 LAND/SEA QUALIFIER                                               CODE TABLE   8012          0            0   2  ".
Definition b8109 : text := cr " 008013 DAY/NIGHT QUALIFIER                                              CODE TABLE   8013          0            0   2  ".
Definition b8110 : text := cr " 008014 QUALIFIER FOR RUNWAY VISUAL RANGE                                CODE TABLE   8014          0            0   4  ".
Definition b8111 : text := cr " 008016 CHANGE INDICATOR OF A TREND-TYPEFORECAST OR AN AERODROME FORECAS CODE TABLE   8016          0            0   3  ".
Definition b8112 : text := cr " 008017 QUALIFIER OF THE TIME WHEN THE FORECAST CHANGE IS EXPECTED       CODE TABLE   8017          0            0   2  ".
Definition b8113 : text := cr " 008020 TOTAL NUMBER OF MISSING ENTITIES(WITH RESPECT TO ACCUMULATION)   NUMERIC                    0            0  16  ".
Definition b8114 : text := cr " 008021 TIME SIGNIFICANCE                                                CODE TABLE   8021          0            0   5  ".
Definition b8115 : text := cr " 008022 TOTAL NUMBER(WITH RESPECT TO ACCUMULATION OR AVERAGE)            NUMERIC                    0            0  16  ".
Definition b8116 : text := cr " 008023 FIRST ORDER STATISTICS                                           CODE TABLE   8023          0            0   6  ".
Definition b8117 : text := cr " 008024 DIFFERENCE STATISTICS                                            CODE TABLE   8024          0            0   6  ".
Definition b8118 : text := cr " 008025 TIME DIFFERENCE QUALIFIER                                        CODE TABLE   8025          0            0   4  ".
Definition b8119 : text := cr " 008030 MANUAL ON CODES (VOL i.1 sECTION C CODE TABLE FROM WHICH DATA AR NUMERIC                    0            0  13  ".
Definition b8120 : text := cr " 008033 METHOD OF DERIVATION OF PERCENTAGE CONFIDENCE                    CODE TABLE   8033          0            0   7  ".
Definition b8121 : text := cr " 008051 QUALIFIER FOR NUMBER OF MISSING VALUES IN CALCULATION OF STATIST CODE TABLE   8051          0            0   3  ".
Definition b8122 : text := cr " 008052 CONDITION FOR WHICH NUMBER OF DAYS OF OCCURRENCE FOLLOWS         CODE TABLE   8052          0            0   5  ".
Definition b8123 : text := cr " 008053 DAY OF OCCURRENCE QUALIFIER                                      CODE TABLE   8053          0            0   2  ".
Definition b8124 : text := cr " 008060 SAMPLE SCANNING MODE SIGNIFICANCE                                CODE TABLE   8060          0            0   4".
Definition b8125 : text := cr " 008070 TOVS/ATOVS PRODUCT QUALIFIER                                     CODE TABLE   8070          0            0   4".
Definition b8126 : text := cr " 008081 TYPE OF EQUIPMENT                                                CODE TABLE   8081          0            0   6  ".
Definition b8127 : text := cr " 008082 (CBS) ARTIFICIAL CORRECTION OF SENSOR HEIGHT TO ANOTHER VALUE    CODE TABLE   8082          0            0   3  ".
Definition b8128 : text := cr " 010001 HEIGHT OF LAND SURFACE                                           M                          0         -400  15  ".
Definition b8129 : text := cr " 010002 HEIGHT                                                           M                         -1          -40  16  ".
Definition b8130 : text := cr " 010003 GEOPOTENTIAL                                                     M**2/S**2                 -1         -400  17  ".
Definition b8131 : text := cr " 010004 PRESSURE                                                         PA                        -1            0  14  ".
Definition b8132 : text := cr " 010007 HEIGHT                                                           M                          0        -1000  17  ".
Definition b8133 : text := cr " 010008 GEOPOTENTIAL                                                     M**2/S**2                  0       -10000  20  ".
Definition b8134 : text := cr " 010031 IN DIRECTION OF THE NORTH POLE  , DISTANCE FROM THE EARTH CENTRE m                          2  -1073741824  31  ".
Definition b8135 : text := cr " 010050 STANDARD DEVIATION ALTITUDE                                      M                          2            0  16  ".
Definition b8136 : text := cr " 010051 PRESSURE REDUCED TO MEAN SEA LEVEL                               PA                        -1            0  14  ".
Definition b8137 : text := cr " 010052 ALTIMETER SETTING (QNH)                                          PA                        -1            0  14  ".
Definition b8138 : text := cr " 010060 PRESSURE CHANGE                                                  PA                        -1        -1024  11  ".
Definition b8139 : text := cr " 010061 3 HOUR PRESSURE CHANGE                                           PA                        -1         -500  10  ".
Definition b8140 : text := cr " 010062 24 HOUR PRESSURE CHANGE                                          PA                        -1        -1000  11  ".
Definition b8141 : text := cr " 010063 CHARACTERISTIC OF PRESSURE TENDENCY                              CODE TABLE  10063          0            0   4  ".
Definition b8142 : text := cr " 010070 INDICATED AIRCRAFT ALTITUDE                                      M                          0         -400  16".
Definition b8143 : text := cr " 011001 WIND DIRECTION                                                   DEGREE TRUE                0            0   9  ".
Definition b8144 : text := cr " 011002 WIND SPEED                                                       M/S                        1            0  12  ".
Definition b8145 : text := cr " 011003 U-COMPONENT                                                      M/S                        1        -4096  13  ".
Definition b8146 : text := cr " 011004 V-COMPONENT                                                      M/S                        1        -4096  13  ".
Definition b8147 : text := cr " 011005 W-COMPONENT                                                      PA/S                       1         -512  10  ".
Definition b8148 : text := cr " 011006 W-COMPONENT                                                      M/S                        2        -4096  13  ".
Definition b8149 : text := cr " 011011 WIND DIRECTION AT 10 M                                           DEGREE TRUE                0            0   9  ".
Definition b8150 : text := cr " 011012 WIND SPEED AT 10 M                                               M/S                        1            0  12  ".
Definition b8151 : text := cr " 011013 WIND DIRECTION AT 5 M                                            DEGREE TRUE                0            0   9  ".
Definition b8152 : text := cr " 011014 WIND SPEED AT 5 M                                                M/S                        1            0  12  ".
Definition b8153 : text := cr " 011016 EXTREME COUNTERCLOCKWISE WIND DIRECTION OF A VARIABLE WIND       DEGREE TRUE                0            0   9  ".
Definition b8154 : text := cr " 011017 EXTREME CLOCKWISE WIND DIRECTIONOF A VARIABLE WIND               DEGREE TRUE                0            0   9  ".
Definition b8155 : text := cr " 011021 RELATIVE VORTICITY                                               1/S                        9       -65536  17  ".
Definition b8156 : text := cr " 011022 DIVERGENCE                                                       1/S                        9       -65536  17  ".
Definition b8157 : text := cr " 011023 VELOCITY POTENTIAL                                               M**2/S                    -2       -65536  17  ".
Definition b8158 : text := cr " 011031 DEGREE OF TURBULENCE                                             CODE TABLE  11031          0            0   4  ".
Definition b8159 : text := cr " 011032 HEIGHT OF BASE OF TURBULENCE                                     M                         -1          -40  16  ".
Definition b8160 : text := cr " 011033 HEIGHT OF TOP OF TURBULENCE                                      M                         -1          -40  16  ".
Definition b8161 : text := cr " 011034 VERTICAL GUST VELOCITY                                           M/S                        1        -1024  11  ".
Definition b8162 : text := cr " 011035 VERTICAL GUST ACCELERATION                                       M/S**2                     2        -8192  14  ".
Definition b8163 : text := cr " 011036 MAXIMUM DERIVED EQUIVALENT VERTICAL GUST SPEED                   M/S                        1            0  10  ".
Definition b8164 : text := cr " 011041 MAXIMUM WIND SPEED (GUSTS)                                       M/S                        1            0  12  ".
Definition b8165 : text := cr " 011042 MAXIMUM WIND SPEED (10 MIN MEAN WIND)                            M/S                        1            0  12  ".
Definition b8166 : text := cr " 011043 MAKSIMUM WIND GUST DIRECTION                                     DEGREE TRUE                0            0   9  ".
Definition b8167 : text := cr " 011044 MEAN WIND DIRECTION FOR SURFACE - 1500 M (5000 FEET)             DEGREE TRUE                0            0   9  ".
Definition b8168 : text := cr " 011045 MEAN WIND SPEED FOR SURFACE - 1500 M (5000 FEET)                 M/S                        1            0  12  ".
Definition b8169 : text := cr " 011049 STANDARD DEVIATION OF WIND DIRECTION                             DEGREE TRUE                0            0   9  ".
Definition b8170 : text := cr " 011050 STANDARD DEVIATION OF HORIZONTALWIND SPEED                       M/S                        1            0  12  ".
Definition b8171 : text := cr " 011051 STANDARD DEVIATION OF VERTICAL WIND SPEED                        M/S                        1            0   8  ".
Definition b8172 : text := cr " 011061 ABSOLUTE WIND SHEAR IN 1 KM LAYER BELOW                          M/S                        1            0  12  ".
Definition b8173 : text := cr " 011062 ABSOLUTE WIND SHEAR IN 1 KM LAYER ABOVE                          M/S                        1            0  12  ".
Definition b8174 : text := cr " 011070 RUNWAY DESIGNATOR OF THE RUNWAY AFFECTED BY WIND SHEAR(INCLUING  CCITTIA5                   0            0  32  ".
Definition b8175 : text := cr " 011071 TURBULENT VERTICAL MOMENTUM FLUX                                 M**2/S**2                  3         -128  14  ".
Definition b8176 : text := cr " 011072 TURBULENT VERTICAL BUOYANCY FLUX                                 KM/S                       3         -128  11  ".
Definition b8177 : text := cr " 011073 TURBULENT KENETIC ENERGY                                         M**2/S**2                  2        -1024  13  ".
Definition b8178 : text := cr " 011074 DISSIPATION ENERGY                                               M**2/S**2                  2        -1024  10  ".
Definition b8179 : text := cr " 011075 MEAN TURBULENCE INTENSITY (EDDY DISSIPATION RATE)                M**(2/3)/S                 2            0   8".
Definition b8180 : text := cr " 011076 PEAK TURBULENCE INTENSITY (EDDY DISSIPATION RATE)                m**(2/3)/S                 2            0   8".
Definition b8181 : text := cr " 012001 TEMPERATURE/DRY BULB TEMPERATURE                                 K                          1            0  12  ".
Definition b8182 : text := cr " 012002 WET BULB TEMPERATURE                                             K                          1            0  12  ".
Definition b8183 : text := cr " 012003 DEW POINT TEMPERATURE                                            K                          1            0  12  ".
Definition b8184 : text := cr " 012004 DRY BULB TEMPERATURE AT 2M                                       K                          1            0  12  ".
Definition b8185 : text := cr " 012005 WET BULB TEMPERATURE AT 2M                                       K                          1            0  12  ".
Definition b8186 : text := cr " 012006 DEW POINT TEMPERATURE AT 2M                                      K                          1            0  12  ".
Definition b8187 : text := cr " 012007 VIRTUAL TEMPERATURE                                              K                          1            0  12  ".
Definition b8188 : text := cr " 012011 MAXIMUM TEMPERATURE,AT HEIGHT AND OVER PERIOD SPECIFIED          K                          1            0  12  ".
Definition b8189 : text := cr " 012012 MINIMUM TEMPERATURE,AT HEIGHT AND OVER PERIOD SPECIFIED          K                          1            0  12  ".
Definition b8190 : text := cr " 012013 GROUND MINIMUM TEMPERATURE PAST 12 HOURS                         K                          1            0  12  ".
Definition b8191 : text := cr " 012014 MAXIMUM TEMPERATURE AT 2M, PAST 12 HOURS                         K                          1            0  12  ".
Definition b8192 : text := cr " 012015 MINIMUM TEMPERATURE AT 2M, PAST 12 HOURS                         K                          1            0  12  ".
Definition b8193 : text := cr " 012016 MAXIMUM TEMPERATURE AT 2M, PAST 24 HOURS                         K                          1            0  12  ".
Definition b8194 : text := cr " 012017 MINIMUM TEMPERATURE AT 2M, PAST 24 HOURS                         K                          1            0  12  ".
Definition b8195 : text := cr " 012030 SOIL TEMPERATURE                                                 K                          1            0  12  ".
Definition b8196 : text := cr " 012051 STANDARD DEVIATION TEMPERATURE                                   K                          1            0  10  ".
Definition b8197 : text := cr " 012052 HIGHEST DAILY MEAN TEMPERATURE                                   K                          1            0  12  ".
Definition b8198 : text := cr " 012053 LOWEST DAILY MEAN TEMPERATURE                                    K                          1            0  12  ".
Definition b8199 : text := cr " 012061 SKIN TEMPERATURE                                                 K                          1            0  12  ".
Definition b8200 : text := cr " 012062 EQUIVALENT BLACK BODY TEMPERATURE                                K                          1            0  12  ".
Definition b8201 : text := cr " 012063 BRIGHTNESS TEMPERATURE                                           K                          1            0  12  ".
Definition b8202 : text := cr " 012064 INSTRUMENT TEMPERATURE                                           K                          1            0  12  ".
Definition b8203 : text := cr " 012071 COLDEST CLUSTER TEMPERATURE                                      K                          1            0  12  ".
Definition b8204 : text := cr " 012072 RADIANCE                                                         W/M**2*STER*M**(-1)        6            0  31  ".
Definition b8205 : text := cr " 012075 SPECTRAL RADIANCE                                                W/M**2*STER*M**(-1)       -3            0  16".
Definition b8206 : text := cr " 012076 RADIANCE                                                         W/M**2*STER                3            0  16".
Definition b8207 : text := cr " 012101 TEMPERATURE/DRY-BULB TEMPERATURE                                 K                          2            0  16".
Definition b8208 : text := cr " 012103 DEW-POINT TEMPERATURE                                            K                          2            0  16".
Definition b8209 : text := cr " 013001 SPECIFIC HUMIDITY                                                KG/KG                      5            0  14  ".
Definition b8210 : text := cr " 013002 MIXING RATIO                                                     KG/KG                      5            0  14  ".
Definition b8211 : text := cr " 013003 RELATIVE HUMIDITY                                                %                          0            0   7  ".
Definition b8212 : text := cr " 013004 VAPOUR PRESSURE                                                  PA                        -1            0  10  ".
Definition b8213 : text := cr " 013005 VAPOUR DENSITY                                                   KG/M**3                    3            0   7  ".
Definition b8214 : text := cr " 013006 MIXING HEIGHT                                                    M                         -1          -40  16  ".
Definition b8215 : text := cr " 013011 TOTAL PRECIPITATION/TOTAL WATER EQUIVALENT                       KG/M**2                    1           -1  14  ".
Definition b8216 : text := cr " 013012 DEPTH OF FRESH SNOW                                              M                          2           -2  12  ".
Definition b8217 : text := cr " 013013 TOTAL SNOW DEPTH                                                 M                          2           -2  16  ".
Definition b8218 : text := cr " 013014 RAINFALL/WATER EQUIVALENT OF SNOW (AVERAGE RATE)                 KG/(M**2)S                 4            0  12  ".
Definition b8219 : text := cr " 013015 SNOWFALL (AVERAGE RATE)                                          M/S                        7            0  12  ".
Definition b8220 : text := cr " 013016 PRECIPITABLE WATER                                               KG/M**2                    0            0   7  ".
Definition b8221 : text := cr " 013019 TOTAL PRECIPITATION PAST 1 HOUR                                  KG/M**2                    1           -1  14  ".
Definition b8222 : text := cr " 013020 TOTAL PRECIPITATION PAST 3 HOURS                                 KG/M**2                    1           -1  14  ".
Definition b8223 : text := cr " 013021 TOTAL PRECIPITATION PAST 6 HOURS                                 KG/M**2                    1           -1  14  ".
Definition b8224 : text := cr " 013022 TOTAL PRECIPITATION PAST 12 HOURS                                KG/M**2                    1           -1  14  ".
Definition b8225 : text := cr " 013023 TOTAL PRECIPITATION PAST 24 HOURS                                KG/M**2                    1           -1  14  ".
Definition b8226 : text := cr " 013031 EVAPOTRANSPIRATION                                               KG/M**2                    0            0   7  ".
Definition b8227 : text := cr " 013032 EVAPORATION/EVAPOTRANSPIRATION                                   KG/M**2                    1            0   8  ".
Definition b8228 : text := cr " 013033 EVAPORATION/EVAPOTRANSPIRATION                                   KG/M**2                    1            0  10  ".
Definition b8229 : text := cr " 013038 SUPERADIABATIC INDICATOR                                         CODE TABLE  13038          0            0   2  ".
Definition b8230 : text := cr " 013039 TERRAIN TYPE (ICE/SNOW)                                          CODE TABLE  13039          0            0   3  ".
Definition b8231 : text := cr " 013041 PASQUILL-GILLFORD STABILITY CATEGORY                             CODE TABLE  13041          0            0   4  ".
Definition b8232 : text := cr " 013042 PARCEL LIFTED INDEX (TO 500 hPa)                                 K                          0          -20   6  ".
Definition b8233 : text := cr " 013043 BEST LIFTED INDEX (TO 500 hPa)                                   K                          0          -20   6  ".
Definition b8234 : text := cr " 013051 FREQUENCY GROUP, PRECIPITATION                                   CODE TABLE  13051          0            0   4  ".
Definition b8235 : text := cr " 013052 HIGHEST DAILY AMOUNT OF PRECIPITATION                            KG/M**2                    1           -1  14  ".
Definition b8236 : text := cr " 014001 LONG-WAVE RADIATION,INTEGRATED OVER 24 HOURS                     J/M**2                    -3        -2048  12  ".
Definition b8237 : text := cr " 014002 LONG-WAVE RADIATION,INTEGRATED OVER PERIOD SPECIFIED             J/M**2                    -3        -2048  12  ".
Definition b8238 : text := cr " 014003 SHORT-WAVE RADIATION,INTEGRATED OVER 24 HOURS                    J/M**2                    -3        -2048  12  ".
Definition b8239 : text := cr " 014004 SHORT-WAVE RADIATION,INTEGRATED OVER PERIOD SPECIFIED            J/M**2                    -3        -2048  12  ".
Definition b8240 : text := cr " 014011 NET LONG-WAVE RADIATION,INTEGRATED OVER 24 HOURS                 J/M**2                    -3        -2048  12  ".
Definition b8241 : text := cr " 014012 NET LONG-WAVE RADIATION,INTEGRATED OVER PERIOD SPECIFIED         J/M**2                    -3        -2048  12  ".
Definition b8242 : text := cr " 014013 NET SHORT-WAVE RADIATION,INTEGRATED OVER 24 HOURS                J/M**2                    -3        -2048  12  ".
Definition b8243 : text := cr " 014014 NET SHORT-WAVE RADIATION,INTEGRATED OVER PERIOD SPECIFIED        J/M**2                    -3        -2048  12  ".
Definition b8244 : text := cr " 014015 NET RADIATION INTEGRATED OVER 24HOURS                            J/M**2                    -4       -16384  15  ".
Definition b8245 : text := cr " 014016 NET RADIATION,INTEGRATED OVER PERIOD SPECIFIED                   J/M**2                    -4       -16384  15  ".
Definition b8246 : text := cr " 014017 INSTANTANEOUS LONG-WAVE RADIATION                                J/M**2                    -3        -2048  12  ".
Definition b8247 : text := cr " 014018 INSTANTANEOUS SHORT-WAVE RADIATION                               J/M**2                    -3        -2048  12  ".
Definition b8248 : text := cr " 014019 SURFACE ALBEDO                                                   %                          0            0   7  ".
Definition b8249 : text := cr " 014020 GLOBAL SOLAR RADIATION INTEGRATED OVER 24 HOURS                  J/M**2                    -4            0  15  ".
Definition b8250 : text := cr " 014021 GLOBAL RADIATION INTEGRATED OVERPERIOD SPECIFIED                 J/M**2                    -4            0  15  ".
Definition b8251 : text := cr " 014022 DIFFUSE SOLAR RADIATION INTEGRATED OVER 24 HOURS                 J/M**2                    -4            0  15  ".
Definition b8252 : text := cr " 014023 DIFFUSE SOLAR RADIATION INTEGRATED OVER PERIOD SPECIFIED         J/M**2                    -4            0  15  ".
Definition b8253 : text := cr " 014024 DIRECT SOLAR RADIATION INTEGRATED OVER 24 HOURS                  J/M**2                    -4            0  15  ".
Definition b8254 : text := cr " 014025 DIRECT SOLAR RADIATION INTEGRATED OVER PERIOD SPECIFIED          J/M**2                    -4            0  15  ".
Definition b8255 : text := cr " 014026 ALBEDO AT THE TOP OF CLOUD                                       %                          0            0   7  ".
Definition b8256 : text := cr " 014031 TOTAL SUNSHINE                                                   MINUTE                     0            0  11  ".
Definition b8257 : text := cr " 014032 TOTAL SUNSHINE                                                   HOUR                       0            0  10  ".
Definition b8258 : text := cr " 014033 TOTAL SUNSHINE                                                   %                          0            0   9  ".
Definition b8259 : text := cr " 014042 BIDIRECTIONAL REFLECTANCE                                        %                          0            0   7  ".
Definition b8260 : text := cr " 014045 CHANNEL RADIANCE                                                 W/M**2*STER*CM**(-1)       0            0  11  ".
Definition b8261 : text := cr " 015001 OZON                                                             DOBSON                     0            0  10  ".
Definition b8262 : text := cr " 015002 AIR MASS (SLANT PATH AT 22 KM)                                   NUMERIC                    2            0  10  ".
Definition b8263 : text := cr " 015011 LOG 10 OF INTEGRATED ELECTRON DENSITY                            LOG(1/M**2)                3        14000  13  ".
Definition b8264 : text := cr " 015015 MAXIMUM IMAGE SPECTRAL COMPONENT BEFORE NORMALIZATION            NUMERIC                    0            0  31  ".
Definition b8265 : text := cr " 015031 ATMOSPHERIC PATH DELAY IN SATELLITE SIGNAL                       M                          4        10000  15 M                         4         5".
Definition b8266 : text := cr " 015032 ESTIMATED ERROR IN ATMOSPHERIC PATH DELAY                        M                          4            0  10 M                         4         4".
Definition b8267 : text := cr " 015033 DIFFERENCE IN PATH DELAYS FOR LIMB VIEWS AT EXTREMES OF SCAN     M                          5       -10000  15 M                         5         5".
Definition b8268 : text := cr " 015034 ESTIMATED ERROR IN PATH DELAY DIFFERENCE                         M                          5            0  14 M                         5         5".
Definition b8269 : text := cr " 015035 COMPONENT OF ZENITH PATH DELAY DUE TO WATER VAPOUR               M                          4            0  14 M                         4         5".
Definition b8270 : text := cr " 015036 ATMOSPHERIC REFRACTIVITY (SEE NOTE 5)                            N-UNITS                    3            0  19 N-UNITS                   3         6".
Definition b8271 : text := cr " 015037 BENDING ANGLE                                                    RADIANS                    8      -100000  23 RADIANS                   8         7".
Definition b8272 : text := cr " 019001 TYPE OF SYNOPTIC FEATURE                                         CODE TABLE  19001          0            0   6  ".
Definition b8273 : text := cr " 019002 EFFECTIVE RADIUS OF FEATURE                                      M                         -2            0  12  ".
Definition b8274 : text := cr " 019003 WIND SPEED THRESHOLD                                             M/S                        0            0   8  ".
Definition b8275 : text := cr " 019004 EFFECTIVE RADIUS WITH RESPECT TO WIND SPEEDS ABOVE THRESHOLD     M                         -2            0  12  ".
Definition b8276 : text := cr " 019005 DIRECTION OF MOTION OF FEATURE                                   DEGREE TRUE                0            0   9  ".
Definition b8277 : text := cr " 019006 SPEED OF MOTION OF FEATURE                                       M/S                        2            0  14  ".
Definition b8278 : text := cr " 019007 EFFECTIVE RADIUS OF FEATURE                                      M                         -3            0  12  ".
Definition b8279 : text := cr " 019008 VERTICAL EXTENT OF CIRCULATION                                   CODE TABLE  19008          0            0   3  ".
Definition b8280 : text := cr " 019009 EFFECTIVE RADIUS WITH RESPECT TOWIND SPEEDS ABOVE TRESHOLD       M                         -3            0  12  ".
Definition b8281 : text := cr " 020001 HORIZONTAL VISIBILITY                                            M                         -1            0  13  ".
Definition b8282 : text := cr " 020002 VERTICAL VISIBILITY                                              M                         -1            0   7  ".
Definition b8283 : text := cr " 020003 PRESENT WEATHER                                                  CODE TABLE  20003          0            0   9  ".
Definition b8284 : text := cr " 020004 PAST WEATHER (1)                                                 CODE TABLE  20004          0            0   5  ".
Definition b8285 : text := cr " 020005 PAST WEATHER (2)                                                 CODE TABLE  20005          0            0   5  ".
Definition b8286 : text := cr " 020009 GENERAL WEATHER INDICATOR                                        CODE TABLE  20009          0            0   4  ".
Definition b8287 : text := cr " 020010 CLOUD COVER (TOTAL)                                              %                          0            0   7  ".
Definition b8288 : text := cr " 020011 CLOUD AMOUNT                                                     CODE TABLE  20011          0            0   4  ".
Definition b8289 : text := cr " 020012 CLOUD TYPE                                                       CODE TABLE  20012          0            0   6  ".
Definition b8290 : text := cr " 020013 HEIGHT OF BASE OF CLOUD                                          M                         -1          -40  11  ".
Definition b8291 : text := cr " 020014 HEIGHT OF TOP OF CLOUD                                           M                         -1          -40  11  ".
Definition b8292 : text := cr " 020015 PRESSURE AT BASE OF CLOUD                                        PA                        -1            0  14".
Definition b8293 : text := cr " 020016 PRESSURE AT TOP OF CLOUD                                         PA                        -1            0  14  ".
Definition b8294 : text := cr " 020017 CLOUD TOP DESCRIPTION                                            CODE TABLE  20017          0            0   4  ".
Definition b8295 : text := cr " 020018 TENDENCY OF RUNWAY VISUAL RANGE                                  CODE TABLE  20018          0            0   2  ".
Definition b8296 : text := cr " 020019 SIGNIFICANT PRESENT OF FORECAST WEATHER                          CCITTIA5                   0            0  72  ".
Definition b8297 : text := cr " 020020 SIGNIFICANT RECENT WEATHER PHENOMENA                             CCITTIA5                   0            0  32  ".
Definition b8298 : text := cr " 020031 ICE DEPOSIT (THICKNESS)                                          M                          2            0   7  ".
Definition b8299 : text := cr " 020032 RATE OF ICE ACCRETION                                            CODE TABLE  20032          0            0   3  ".
Definition b8300 : text := cr " 020033 CAUSE OF ICE ACCRETION                                           FLAG TABLE  20033          0            0   4  ".
Definition b8301 : text := cr " 020034 SEA ICE CONCETRATION                                             CODE TABLE  20034          0            0   5  ".
Definition b8302 : text := cr " 020035 AMOUNT AND TYPE OF ICE                                           CODE TABLE  20035          0            0   4  ".
Definition b8303 : text := cr " 020036 ICE SITUATION                                                    CODE TABLE  20036          0            0   5  ".
Definition b8304 : text := cr " 020037 ICE DEVELOPMENT                                                  CODE TABLE  20037          0            0   5  ".
Definition b8305 : text := cr " 020038 BEARING OF ICE EDGE                                              DEGREE TRUE                0            0  12  ".
Definition b8306 : text := cr " 020039 ICE DISTANCE                                                     M                         -1            0  13  ".
Definition b8307 : text := cr " 020041 AIRFRAME ICING                                                   CODE TABLE  20041          0            0   4  ".
Definition b8308 : text := cr " 020051 AMOUNT OF LOW CLOUDS                                             %                          0            0   7  ".
Definition b8309 : text := cr " 020052 AMOUNT OF MIDDLE CLOUDS                                          %                          0            0   7  ".
Definition b8310 : text := cr " 020053 AMOUNT OF HIGH CLOUDS                                            %                          0            0   7  ".
Definition b8311 : text := cr " 020061 RUNWAY VISUAL RANGE (RVR)                                        M                          0            0  12  ".
Definition b8312 : text := cr " 020062 STATE OF GROUND (WITH OR WITHOUTSNOW                             CODE TABLE  20062          0            0   5  ".
Definition b8313 : text := cr " 020063 SPECIAL PHENOMENA                                                CODE TABLE  20063          0            0  10  ".
Definition b8314 : text := cr " 020081 CLOUD AMOUNT IN SEGMENT                                          %                          0            0   7  ".
Definition b8315 : text := cr " 020082 AMOUNT OF SEGMENT CLOUD FREE                                     %                          0            0   7  ".
Definition b8316 : text := cr " 020090 SPECIAL CLOUDS                                                   CODE TABLE  20090          0            0   4".
Definition b8317 : text := cr " 021001 HORIZONTAL REFLECTIVITY                                          dB                         0          -64   7  ".
Definition b8318 : text := cr " 021002 VERTICAL REFLECTIVITY                                            dB                         0          -64   7  ".
Definition b8319 : text := cr " 021003 DIFFERENTIAL REFLECTIVITY                                        dB                         1           -5   7  ".
Definition b8320 : text := cr " 021005 LINEAR DEPOLARISATION RATIO                                      dB                         0          -65   6  ".
Definition b8321 : text := cr " 021006 CIRCULAR DEPOLARIZATION RATIO                                    dB                         0          -65   6  ".
Definition b8322 : text := cr " 021011 DOPPLER MEAN VELOCITY IN X-DIRECTION                             M/S                        0         -128   8  ".
Definition b8323 : text := cr " 021012 DOPPLER MEAN VELOCITY IN Y-DIRECTION                             M/S                        0         -128   8  ".
Definition b8324 : text := cr " 021013 DOPPLER MEAN VELOCITY IN Z-DIRECTION(VZ)                         M/S                        0         -128   8  ".
Definition b8325 : text := cr " 021014 DOPPLER MEAN VELOCITY RADIAL                                     M/S                        1        -4096  13  ".
Definition b8326 : text := cr " 021017 DOPPLER VELOCITY SPECTRAL WIDTH                                  M/S                        1            0   8  ".
Definition b8327 : text := cr " 021021 ECHO TOPS                                                        M                         -3            0   4  ".
Definition b8328 : text := cr " 021030 SIGNAL TO NOISE RATIO                                            dB                         0          -32   8  ".
Definition b8329 : text := cr " 021031 VERTICALLY INTEGRATED LIQUID-WATER CONTENT                       KG/M**2                    0            0   7  ".
Definition b8330 : text := cr " 021036 RADAR RAINFALL INTENSITY                                         M/S                        7            0  12  ".
Definition b8331 : text := cr " 021041 BRIGHT-BAND HEIGHT                                               M                         -2            0   8  ".
Definition b8332 : text := cr " 021051 SIGNAL POWER ABOVE 1 mW                                          dB                         0         -256   8  ".
Definition b8333 : text := cr " 021062 BACKSCATTER                                                      dB                         2        -5000  13  ".
Definition b8334 : text := cr " 021063 RADIOMETRIC RESOLUTION (NOISE VALUE)                             %                          1            0  10  ".
Definition b8335 : text := cr " 021064 CLUTTER NOISE ESTIMATE                                           NUMERIC                    0            0   8  ".
Definition b8336 : text := cr " 021065 MISSING PACKET COUNTER                                           NUMERIC                    0         -127   8  ".
Definition b8337 : text := cr " 021066 WAVE SCATTEROMETER PRODUCT CONFIDENCE                            FLAG TABLE  21066          0            0  12  ".
Definition b8338 : text := cr " 021067 WIND PRODUCT CONFIDENCE DATA                                     FLAG TABLE  21067          0            0  13  ".
Definition b8339 : text := cr " 021068 RADAR ALTIMETER PRODUCT CONFIDENCE DATA                          FLAG TABLE  21068          0            0   8  ".
Definition b8340 : text := cr " 021069 SST PRODUCT CONFIDENCE DATA                                      FLAG TABLE  21069          0            0  10  ".
Definition b8341 : text := cr " 021071 PEAKINESS                                                        NUMERIC                    0            0  16  ".
Definition b8342 : text := cr " 021072 SATELLITE ALTIMETER CALIBRATION STATUS                           FLAG TABLE  21072          0            0   4  ".
Definition b8343 : text := cr " 021073 SATELLITE ALTIMETER INSTRUMENT MODE                              FLAG TABLE  21073          0            0   9  ".
Definition b8344 : text := cr " 021075 SPECTRAL INTENSITY                                               NUMERIC                    0            0   8  ".
Definition b8345 : text := cr " 021076 REPRESENTATION OF INTENSITIES                                    CODE TABLE  21076          0            0   3  ".
Definition b8346 : text := cr " 021077 ALTITUDE CORRECTION (IONOSPHERE)                                 M                          3            0  14  ".
Definition b8347 : text := cr " 021078 ALTITUDE CORRECTION (DRY TROPOSPHERE)                            M                          3            0   9  ".
Definition b8348 : text := cr " 021079 ALTITUDE CORRECTION (WET TROPOSPHERE)                            M                          3         2000  10  ".
Definition b8349 : text := cr " 021080 ALTITUDE CORRECTION (CALIBRATIONCONSTANT)                        M                          3            0  11  ".
Definition b8350 : text := cr " 021081 OPEN LOOP CORRECTION (HEIGHT-TIME LOOP)                          M                          3            0  10  ".
Definition b8351 : text := cr " 021082 OPEN LOOP CORRECTION (AUTO GAIN CONTROL)                         dB                         3        -3000  14  ".
Definition b8352 : text := cr " 021085 ATSR SEA SURFACE TEMPERATURE ACROSS-TRACK BAND NUMBER            NUMERIC                    0            0   4  ".
Definition b8353 : text := cr " 022001 DIRECTION OF WAVES                                               DEGREE TRUE                0            0   9  ".
Definition b8354 : text := cr " 022002 DIRECTION OF WIND WAVES                                          DEGREE TRUE                0            0   9  ".
Definition b8355 : text := cr " 022003 DIRECTION OF SWELL WAVES                                         DEGREE TRUE                0            0   9  ".
Definition b8356 : text := cr " 022004 DIRECTION OF CURRENT                                             DEGREE TRUE                0            0   9  ".
Definition b8357 : text := cr " 022011 PERIOD OF WAVES                                                  S                          0            0   6  ".
Definition b8358 : text := cr " 022012 PERIOD OF WIND WAVES                                             S                          0            0   6  ".
Definition b8359 : text := cr " 022013 PERIOD OF SWELL WAVES                                            S                          0            0   6  ".
Definition b8360 : text := cr " 022021 HEIGHT OF WAVES                                                  M                          1            0  10  ".
Definition b8361 : text := cr " 022022 HEIGHT OF WIND WAVES                                             M                          1            0  10  ".
Definition b8362 : text := cr " 022023 HEIGHT OF SWELL WAVES                                            M                          1            0  10  ".
Definition b8363 : text := cr " 022025 STANDARD DEVIATION WAVE HEIGHT                                   M                          2            0  10  ".
Definition b8364 : text := cr " 022026 STANDARD DEVIATION OF SIGNIFICANT WAVE HEIGHT                    M                          2            0  10  ".
Definition b8365 : text := cr " 022031 SPEED OF CURRENT                                                 M/S                        2            0  13  ".
Definition b8366 : text := cr " 022037 TIDAL ELEVATION WITH RESPECT TO NATIONAL LAND DATUM              M                          3       -10000  15  ".
Definition b8367 : text := cr " 022038 TIDAL ELEVATION WITH RESPECT TO LOCAL CHART DATUM                M                          3       -10000  15  ".
Definition b8368 : text := cr " 022039 METEOROLOGICAL RESIDUAL TIDAL ELEVATION(SURGE OF OFFSET)         M                          3        -5000  12  ".
Definition b8369 : text := cr " 022040 METEOROLOGICAL RESIDUAL TIDAL ELEVATION (SURGE OF OFFSET)        M                          3        -5000  14  ".
Definition b8370 : text := cr " 022041 SEA-SURFACE TEMPERATURE(15-DAY RUNNING MEAN)                     K                          1            0  12  ".
Definition b8371 : text := cr " 022042 SEA/WATER TEMPERATURE                                            K                          1            0  12  ".
Definition b8372 : text := cr " 022043 SEA/WATER TEMPERATURE                                            K                          2            0  15  ".
Definition b8373 : text := cr " 022044 SOUND VELOCITY                                                   M/S                        1            0  14  ".
Definition b8374 : text := cr " 022050 STANDARD DEVIATION SEA SURFACE TEMPERATURE                       K                          2            0   8  ".
Definition b8375 : text := cr " 022060 LAGRANGIAN DRIFTER DROGUE STATUS                                 CODE TABLE 22060           0            0   3  ".
Definition b8376 : text := cr " 022061 STATE OF THE SEA                                                 CODE TABLE  22061          0            0   4  ".
Definition b8377 : text := cr " 022062 SALINITY                                                         %.                         3            0  14  ".
Definition b8378 : text := cr " 022063 TOTAL WATER DEPTH                                                M                          0            0  14  ".
Definition b8379 : text := cr " 022067 INSTRUMENT TYPE FOR WATER TEMPERATURE PROFILE MEASUREMENT        CODE TABLE  22067          0            0  10  ".
Definition b8380 : text := cr " 022068 WATER TEMPERATURE PROFILE RECORDER TYPES                         CODE TABLE  22068          0            0   7  ".
Definition b8381 : text := cr " 022070 SIGNIFICANT WAVE HEIGHT                                          M                          2            0  13  ".
Definition b8382 : text := cr " 022071 SPECTRAL PEAK WAVE PERIOD                                        S                          1            0   9  ".
Definition b8383 : text := cr " 022072 SPECTRAL PEAK WAVE LENGTH                                        M                          0            0  13  ".
Definition b8384 : text := cr " 022073 MAXIMUM WAVE LENGTH                                              M                          2            0  13  ".
Definition b8385 : text := cr " 022074 AVERAGE WAVE PERIOD                                              S                          1            0   9  ".
Definition b8386 : text := cr " 022075 AVERAGE WAVE LENGTH                                              M                          0            0  13  ".
Definition b8387 : text := cr " 022076 DIRECTION FROM WHICH DOMINANT WAVES ARE COMING                   DEGREE TRUE                0            0   9  ".
Definition b8388 : text := cr " 022077 DIRECTIONAL SPREAD OF DOMINANT WAVE                              DEGREE                     0            0   9  ".
Definition b8389 : text := cr " 022078 DURATION OF WAVE RECORD                                          S                          0            0  12  ".
Definition b8390 : text := cr " 022079 LENGTH OF WAVE RECORD                                            M                          0            0  16  ".
Definition b8391 : text := cr " 022080 WAVEBAND CENTRAL FREQUENCY                                       Hz                         3            0  10  ".
Definition b8392 : text := cr " 022081 WAVEBAND CENTRAL WAVE NUMBER                                     1/M                        5            0  13  ".
Definition b8393 : text := cr " 022082 MAXIMUM NON-DIRECTIONAL SPECTRALWAVE DENSITY                     M**2S                      2            0  20  ".
Definition b8394 : text := cr " 022083 MAXIMUM NON-DIRECTIONAL SPECTRALWAVE NUMBER                      M**3                       2            0  20  ".
Definition b8395 : text := cr " 022084 BAND CONTAINING MAXIMUM NON-DIRECTIONAL SPECTRAL WAVE DENSITY    NUMERIC                    0            0   7  ".
Definition b8396 : text := cr " 022085 SPECTRAL WAVE DENSITY RATIO                                      NUMERIC                    0            0   7  ".
Definition b8397 : text := cr " 022086 MEAN DIRECTION FROM WHICH WAVES ARE COMING                       DEGREE TRUE                0            0   9  ".
Definition b8398 : text := cr " 022087 PRINCIPAL DIRECTION FROM WHICH WAVES ARE COMING                  DEGREE TRUE                0            0   9  ".
Definition b8399 : text := cr " 022088 FIRST NORMALIZED POLAR COORDINATE FROM FOURIER COEFFICIENTS      NUMERIC                    2            0   7  ".
Definition b8400 : text := cr " 022089 SECOND NORMALIZED POLAR COORDINATE FROM FOURIER COEFFICIENTS     NUMERIC                    2            0   7  ".
Definition b8401 : text := cr " 022090 NON-DIRECTIONAL SPECTRAL ESTIMATE BY WAVE FREQUENCY              M**2S                      2            0  20  ".
Definition b8402 : text := cr " 022091 NON-DIRECTIONAL SPECTRAL ESTIMATE BY WAVE NUMBER                 M**3                       2            0  20  ".
Definition b8403 : text := cr " 022092 DIRECTIONAL SPECTRAL ESTIMATE BYWAVE FREQUENCY                   M**2S/RAD                  2            0  20  ".
Definition b8404 : text := cr " 022093 DIRECTIONAL SPECTRAL ESTIMATE BYWAVE NUMBER                      M**4                       2            0  20  ".
Definition b8405 : text := cr " 022094 TOTAL NUMBER OF WAVE BANDS                                       NUMERIC                    0            0   7  ".
Definition b8406 : text := cr " 022095 DIRECTIONAL SPREAD OF INDIVIDUALWAVES                            DEGREE                     0            0   8  ".
Definition b8407 : text := cr " 022096 SPECTRAL BAND WIDTH                                              1/S                        3            0   4  ".
Definition b8408 : text := cr " 022097 MEAN WAVELENGTH > 731 M OF IMAGE SPECTRUM AT LOW WAVE NUMBERS    M                          0            0  14".
Definition b8409 : text := cr " 022098 WAVELENGTH SPREAD (WAVELENGTH > 731 M) AT LOW WAVE NUMBERS       M                          0            0  14".
Definition b8410 : text := cr " 022099 MEAN DIRECTION AT LOW WAVE NUMBERS (WAVELENGTH > 731 M)          DEGREE TRUE                0            0   9".
Definition b8411 : text := cr " 022100 DIRECTION SPREAD AT LOW WAVE NUMBERS (WAVELENGTH > 731 M)        DEGREE                     0            0   9".
Definition b8412 : text := cr " 022101 TOTAL ENERGY (WAVELENGTH > 731 M) AT LOW WAVE NUMBERS            NUMERIC                    0            0  31".
Definition b8413 : text := cr " 022120 TIDE STATION AUTOMATED WATER LEVEL CHECK                         CODE TABLE  22120          0            0   5  ".
Definition b8414 : text := cr " 022121 TIDE STATION MANUAL WATER LEVEL CHECK                            CODE TABLE  22121          0            0   5  ".
Definition b8415 : text := cr " 022122 TIDE STATION AUTOMATED METEOROLOGICAL DATA CHECK                 CODE TABLE  22122          0            0   5  ".
Definition b8416 : text := cr " 022123 TIDE STATION MANUAL METEOROLOGICAL DATA CHECK                    CODE TABLE  22123          0            0   5  ".
Definition b8417 : text := cr " 023001 ACCIDENT EARLY NOTIFICATION-ARTICLE APPLICABLE                   CODE TABLE  23001          0            0   3  ".
Definition b8418 : text := cr " 023002 ACTIVITY OR FACILITY INVOLVED ININCIDENT                         CODE TABLE  23002          0            0   5  ".
Definition b8419 : text := cr " 023003 TYPE OF RELEASE                                                  CODE TABLE  23003          0            0   3  ".
Definition b8420 : text := cr " 023004 COUNTERMEASURES TAKEN NEAR BORDER                                CODE TABLE  23004          0            0   3  ".
Definition b8421 : text := cr " 023005 COUSE OF INCIDENT                                                CODE TABLE  23005          0            0   2  ".
Definition b8422 : text := cr " 023006 INCIDENT SITUATION                                               CODE TABLE  23006          0            0   3  ".
Definition b8423 : text := cr " 023007 CHARACTERISTICS OF RELEASE                                       CODE TABLE  23007          0            0   3  ".
Definition b8424 : text := cr " 023008 STATE OF CURRENT RELEASE                                         CODE TABLE  23008          0            0   2  ".
Definition b8425 : text := cr " 023009 STATE OF EXPECTED RELEASE                                        CODE TABLE  23009          0            0   2  ".
Definition b8426 : text := cr " 023016 POSSIBILITY OF SIGNIFICANT CHEMICAL TOXIC HEALTH EFFECT          CODE TABLE  23016          0            0   2  ".
Definition b8427 : text := cr " 023017 FLOW DISCHARGE OF MAJOR RECEPIENT                                M**3/S                     6            0  20  ".
Definition b8428 : text := cr " 023018 RELEASE BEHAVIOUR OVER TIME                                      CODE TABLE  23018          0            0   3  ".
Definition b8429 : text := cr " 023019 ACTUAL RELEASE HEIGHT                                            M                          0       -15000  17  ".
Definition b8430 : text := cr " 023021 EFFECTIVE RELEASE HEIGHT                                         M                          0       -15000  17  ".
Definition b8431 : text := cr " 023022 DISTANCE OF RELEASE POINT OR SITE OF INCIDENT                    M                          0            0  24  ".
Definition b8432 : text := cr " 023023 MAIN TRANSPORT SPEED IN THE ATMOSPHERE                           M/S                        1            0  12  ".
Definition b8433 : text := cr " 023024 MAIN TRANSPORT SPEED WATER                                       M/S                        2            0  13  ".
Definition b8434 : text := cr " 023025 MAIN TRANSPORT SPEED IN GROUND WATER                             M/S                        2            0  13  ".
Definition b8435 : text := cr " 023027 MAIN TRANSPORT DIRECTION IN THE ATMOSPHERE                       DEGREE TRUE                0            0   9  ".
Definition b8436 : text := cr " 023028 MAIN TRANSPORT DIRECTION IN WATER                                DEGREE TRUE                0            0   9  ".
Definition b8437 : text := cr " 023029 MAIN TRANSPORT DIRECTION IN GROUND WATER                         DEGREE TRUE                0            0   9  ".
Definition b8438 : text := cr " 023031 POSSIBILITY THAT PLUME WILL ENCOUNTER PRECIPITATION IN STATE IN  CODE TABLE  23031          0            0   2  ".
Definition b8439 : text := cr " 023032 PLUME WILL ENCOUNTER CHANGE IN WIND DIRECTION AND/OR SPEED FLAG  CODE TABLE  23032          0            0   2  ".
Definition b8440 : text := cr " 024001 ESTIMATE OF AMOUNT OF RADIOACTIVITY RELEASED UP TO SPECIFIED TIM Bq                       -11            0  28  ".
Definition b8441 : text := cr " 024002 ESTIMATED MAXIMUM POTENTIAL RELEASE                              Bq                       -11            0  28  ".
Definition b8442 : text := cr " 024003 COMPOSITION OF RELEASE                                           CODE TABLE  24003          0            0   5  ".
Definition b8443 : text := cr " 024004 ELEMENT NAME                                                     CCITTIA5                   0            0  16  ".
Definition b8444 : text := cr " 024005 ISOTOPE MASS                                                     NUMERIC                    0            0   9  ".
Definition b8445 : text := cr " 024011 DOSE                                                             mSv                        2            0  32  ".
Definition b8446 : text := cr " 024012 TRAJECTORY DOSE (DEFINED LOCATION AND EXPECTED TIME)             mSv                        2            0  32  ".
Definition b8447 : text := cr " 024013 GAMMA DOSE IN AIR ALONG THE MAINTRANSPORT PATH(DEFINED LOCATION  mSv                        2            0  32  ".
Definition b8448 : text := cr " 024021 AIR CONCENTRATION(OF NAMED ISOTOPE TYPE INCLUDING GROSS BETA     Bq/M**3                    2            0  32  ".
Definition b8449 : text := cr " 024022 CONCENTRATION IN PRECIPITATION ( OF NAMED ISOTOPE TYPE)          Bq/L                       2            0  32  ".
Definition b8450 : text := cr " 025001 RANGE-GATE LENGTH                                                M                         -1            0   6  ".
Definition b8451 : text := cr " 025002 NUMBER OF GATES AVERAGED                                         NUMERIC                    0            0   4  ".
Definition b8452 : text := cr " 025003 NUMBER OF INTEGRATED PULSES                                      NUMERIC                    0            0   8  ".
Definition b8453 : text := cr " 025004 ECHO PROCESSING                                                  CODE TABLE  25004          0            0   2  ".
Definition b8454 : text := cr " 025005 ECHO INTEGRATION                                                 CODE TABLE  25005          0            0   2  ".
Definition b8455 : text := cr " 025006 Z TO R CONVERSION                                                CODE TABLE  25006          0            0   3  ".
Definition b8456 : text := cr " 025007 Z TO R CONVERSION FACTOR                                         NUMERIC                    0            0  12  ".
Definition b8457 : text := cr " 025008 Z TO R CONVERSION EXPONENT                                       NUMERIC                    2            0   9  ".
Definition b8458 : text := cr " 025009 CALIBRATION METHOD                                               FLAG TABLE  25009          0            0   4  ".
Definition b8459 : text := cr " 025010 CLUTTER TREATMENT                                                CODE TABLE  25010          0            0   4  ".
Definition b8460 : text := cr " 025011 GROUND ACCULTATION CORRECTION(SCREENING)                         CODE TABLE  25011          0            0   2  ".
Definition b8461 : text := cr " 025012 RANGE ATTENUATION CORRECTION                                     CODE TABLE  25012          0            0   2  ".
Definition b8462 : text := cr " 025013 BRIGHT-BAND CORRECTION                                           FLAG TABLE  25013          0            0   2  ".
Definition b8463 : text := cr " 025014 AZIMUTH CLUTTER CUT-OFF                                          NUMERIC                    0            0  12".
Definition b8464 : text := cr " 025015 RADOM ATTENUATION CORRECTION                                     FLAG TABLE  25015          0            0   2  ".
Definition b8465 : text := cr " 025016 CLEAR-AIR ATTENUATION CORRECTION                                 dB/M                       5            0   6  ".
Definition b8466 : text := cr " 025017 PRECIPITATION ATTENUATION CORRECTION                             FLAG TABLE  25017          0            0   2  ".
Definition b8467 : text := cr " 025018 A TO Z LAW FOR ATTENUATION FACTOR                                NUMERIC                    7            0   6  ".
Definition b8468 : text := cr " 025019 A TO Z LAW FOR ATTENUATION EXPONENT                              NUMERIC                    2            0   7  ".
Definition b8469 : text := cr " 025020 MEAN SPEED ESTIMATION                                            CODE TABLE  25020          0            0   2  ".
Definition b8470 : text := cr " 025021 WIND COMPUTATION EHANCEMENT                                      FLAG TABLE  25021          0            0   8  ".
Definition b8471 : text := cr " 025026 BATTERY VOLTAGE (LARGE RANGE)                                    V                          1            0  12  ".
Definition b8472 : text := cr " 025028 OPERATOR OR MANUFACTURER DEFINED PARAMETER                       NUMERIC                    1       -16384  15  ".
Definition b8473 : text := cr " 025030 RUNNING MEAN SEA-SURFACE TEMPERATURE USAGE                       CODE TABLE  25030          0            0   2  ".
Definition b8474 : text := cr " 025032 WIND PROFILER MODE INFORMATION                                   CODE TABLE  25032          0            0   2  ".
Definition b8475 : text := cr " 025033 WIND PROFILER SUBMODE INFORMATION                                CODE TABLE  25033          0            0   2  ".
Definition b8476 : text := cr " 025034 WIND PROFILER QUALITY CONTROL TEST RESULTS                       FLAG TABLE  25034          0            0   4  ".
Definition b8477 : text := cr " 025040 CO2 WIND PRODUCT DERIVATION                                      CODE TABLE  25040          0            0   4  ".
Definition b8478 : text := cr " 025041 MOVING PLATFORM DIRECTION REPORTING METHOD                       CODE TABLE  25041          0            0   2  ".
Definition b8479 : text := cr " 025042 MOVING PLATFORM SPEED REPORTING                                  CODE TABLE  25042          0            0   2  ".
Definition b8480 : text := cr " 025043 WAVE SAMPLING INTERVAL (TIME)                                    S                          4            0  15  ".
Definition b8481 : text := cr " 025044 WAVE SAMPLING INTERVAL (SPACE)                                   M                          2            0  14  ".
Definition b8482 : text := cr " 025045 HIRS CHANNEL COMBINATION                                         FLAG TABLE  25045          0            0  21  ".
Definition b8483 : text := cr " 025046 MSU CHANNEL COMBINATION                                          FLAG TABLE  25046          0            0   5  ".
Definition b8484 : text := cr " 025047 SSU CHANNEL COMBINATION                                          FLAG TABLE  25047          0            0   4  ".
Definition b8485 : text := cr " 025048 AMSU-A CHANNEL COMBINATION                                       FLAG TABLE  25048          0            0  16  ".
Definition b8486 : text := cr " 025049 AMSU-B CHANNEL COMBINATION                                       FLAG TABLE  25049          0            0   6  ".
Definition b8487 : text := cr " 025051 AVHRR CHANNEL COMBINATION                                        FLAG TABLE  25051          0            0   7  ".
Definition b8488 : text := cr " 025053 OBSERVATION QUALITY                                              FLAG TABLE  25053          0            0  12  ".
Definition b8489 : text := cr " 025060 SOFTWARE INDENTIFICATION                                         NUMERIC                    0            0  14  ".
Definition b8490 : text := cr " 025070 MAJOR FRAME COUNT                                                NUMERIC                    0            0   4  ".
Definition b8491 : text := cr " 025071 FRAME COUNT                                                      NUMERIC                    0            0   5  ".
Definition b8492 : text := cr " 025075 SATELLITE ANTENNA CORRECTION VERSION NUMBER                      NUMERIC                    0            0   5  ".
Definition b8493 : text := cr " 025076 LOG-10 OF (TEMP-RAD CENTRAL WAVENUMBER) FOR ATOVS                LOGM-1                     8            0  30  ".
Definition b8494 : text := cr " 025077 BANDWIDTH CORRECTION COEFFICIENT 1 FOR ATOVS                     NUMERIC                    5      -100000  18  ".
Definition b8495 : text := cr " 025078 BANDWIDTH CORRECTION COEFFICIENT 2 FOR ATOVS                     NUMERIC                    5            0  17  ".
Definition b8496 : text := cr " 025079 ALBEDO-RAD SOLAR FILTERED IRRADIANCE FOR ATOVS                   WM-2                       4            0  24  ".
Definition b8497 : text := cr " 025080 ALBEDO-RAD FILTER WIDTH FOR ATOVS                                M                         10            0  14  ".
Definition b8498 : text := cr " 025085 FRACTION OF CLEAR PIXELS IN HIRS FOV                             NUMERIC                    0            0   7  ".
Definition b8499 : text := cr " 025086 DEPTH CORRECTION INDICATOR                                       CODE TABLE  25086          0            0   2  ".
Definition b8500 : text := cr " 026001 PRINCIPAL TIME OF DAILY READING IN UTC OF MAXIMUM TEMPERATURE    HOUR                       1            0  12  ".
Definition b8501 : text := cr " 026002 PRINCIPAL TIME OF DAILY READING IN UTC OF MINIMUM TEMPERATURE    HOUR                       1            0  12  ".
Definition b8502 : text := cr " 026003 TIME DIFFERENCE                                                  MINUTE                     0        -1440  12  ".
Definition b8503 : text := cr " 027001 LATITUDE(HIGH ACCURACY)                                          DEGREE                     5     -9000000  25  ".
Definition b8504 : text := cr " 027002 LATITUDE(COARSE ACCURACY)                                        DEGREE                     2        -9000  15  ".
Definition b8505 : text := cr " 027003 ALTERNATE LATITUDE                                               DEGREE                     2        -9000  15  ".
Definition b8506 : text := cr " 027004 ALTERNATE LATITUDE (HIGH ACCURACY)                               DEGREE                     5     -9000000  25  ".
Definition b8507 : text := cr " 027020 SATELLITE LOCATION COUNTER                                       NUMERIC                    0            0  16  ".
Definition b8508 : text := cr " 027021 SATELLITE SUBLOCATION DIMENSION                                  NUMERIC                    0            0  16  ".
Definition b8509 : text := cr " 027031 IN DIRECTION OF 0 DEGREES LONGITUDE, DISTANCE FROM THE EARTH'S C M                          2  -1073741824  31  ".
Definition b8510 : text := cr " 028001 LONGITUDE(HIGH ACCURACY)                                         DEGREE                     5    -18000000  26  ".
Definition b8511 : text := cr " 028002 LONGITUDE(COARSE ACCURACY)                                       DEGREE                     2       -18000  16  ".
Definition b8512 : text := cr " 028003 ALTERNATE LONGITUDE                                              DEGREE                     2       -18000  16  ".
Definition b8513 : text := cr " 028004 ALTERNATE LONGITUDE (HIGH ACCURACY)                              DEGREE                     5    -18000000  26  ".
Definition b8514 : text := cr " 028031 IN DIRECTION OF 90 DEGREES EAST,DISTANCE FROM THE EARTH'S CENTRE M                          2  -1073741824  31  ".
Definition b8515 : text := cr " 029001 PROJECTION TYPE                                                  CODE TABLE  29001          0            0   3  ".
Definition b8516 : text := cr " 029002 CO-ORDINATE GRID TYPE                                            CODE TABLE  29002          0            0   3  ".
Definition b8517 : text := cr " 030001 PIXEL VALUE(4 BITS)                                              NUMERIC                    0            0   4  ".
Definition b8518 : text := cr " 030002 PIXEL VALUE(8 BITS)                                              NUMERIC                    0            0   8  ".
Definition b8519 : text := cr " 030004 PIXEL VALUE(16 BITS)                                             NUMERIC                    0            0  16  ".
Definition b8520 : text := cr " 030021 NUMBER OF PIXELS PER ROW                                         NUMERIC                    0            0  12  ".
Definition b8521 : text := cr " 030022 NUMBER OF PIXELS PER COLUMN                                      NUMERIC                    0            0  12  ".
Definition b8522 : text := cr " 030031 PICTURE TYPE                                                     CODE TABLE  30031          0            0   4  ".
Definition b8523 : text := cr " 030032 COMBINATION WITH OTHER DATA                                      FLAG TABLE  30032          0            0  16  ".
Definition b8524 : text := cr " 031000 SHORT DELAYED DESCRIPTOR REPLICATION FACTOR                      NUMERIC                    0            0   1  ".
Definition b8525 : text := cr " 031001 DELAYED DESCRIPTOR REPLICATION FACTOR                            NUMERIC                    0            0   8  ".
Definition b8526 : text := cr " 031002 EXTENDED DELAYED DESCRIPTOR REPLICATION FACTOR                   NUMERIC                    0            0  16  ".
Definition b8527 : text := cr " 031011 DELAYED DESCRIPTOR AND DATA REPETITION FACTOR                    NUMERIC                    0            0   8  ".
Definition b8528 : text := cr " 031012 EXTENDED DELAYED DESCRIPTOR AND DATA REPETITION FACTOR           NUMERIC                    0            0  16  ".
Definition b8529 : text := cr " 031021 ASSOCIATED FIELD SIGNIFICANCE                                    CODE TABLE  31021          0            0   6  ".
Definition b8530 : text := cr " 031031 DATA PRESENT INDICATOR                                           NUMERIC                    0            0   1  ".
Definition b8531 : text := cr " 033002 QUALITY INFORMATION TABLE                                        CODE TABLE  33002          0            0   2  ".
Definition b8532 : text := cr " 033003 QUALITY INFORMATION TABLE                                        CODE TABLE  33003          0            0   3  ".
Definition b8533 : text := cr " 033007 % CONFIDENCE                                                     %                          0            0   7  ".
Definition b8534 : text := cr " 033020 QUALITY CONTROL INDICATION OF FOLLOWING VALUE                    CODE TABLE  33020          0            0   3  ".
Definition b8535 : text := cr " 033021 QUALITY OF FOLLOWING VALUE                                       CODE TABLE  33021          0            0   2  ".
Definition b8536 : text := cr " 033022 QUALITY OF BUOY SATELLITE TRANSMISSION                           CODE TABLE  33022          0            0   2  ".
Definition b8537 : text := cr " 033023 QUALITY OF BUOY LOCATION                                         CODE TABLE  33023          0            0   2  ".
Definition b8538 : text := cr " 033024 STATION ELEVATION QUALITY MARK  (FOR MOBILE STATION)             CODE TABLE  33024          0            0   2  ".
Definition b8539 : text := cr " 033025 ACARS INTERPOLATED VALUES                                        CODE TABLE  33025          0            0   3".
Definition b8540 : text := cr " 033026 MIXING RATIO QUALITY                                             CODE TABLE  33026          0            0   6".
Definition b8541 : text := cr " 033027 LOCATION QUALITY CLASS (RANGE OF RADIUS OF 66% CONFIDENCE        CODE TABLE  33027          0            0   3".
Definition b8542 : text := cr " 033030 SCAN LINE STATUS FLAGS FOR ATOVS                                 FLAG TABLE  33030          0            0  24".
Definition b8543 : text := cr " 033031 SCAN LINE QUALITY FLAGS FOR ATOVS                                FLAG TABLE  33031          0            0  24".
Definition b8544 : text := cr " 033032 CHANNEL QUALITY FLAGS FOR ATOVS                                  FLAG TABLE  33032          0            0  24".
Definition b8545 : text := cr " 033033 FIELD OF VIEW QUALITY FLAGS FOR ATOVS                            FLAG TABLE  33033          0            0  24".
Definition b8546 : text := cr " 033035 MANUAL-AUTOMATIC QUALITY CONTROL                                 CODE TABLE  33035          0            0   4  ".
Definition b8547 : text := cr " 033036 NOMINAL CONFIDENCE THRESHOLD                                     %                          0            0   7  ".
Definition b8548 : text := cr " 033037 WIND CORRELATION ERROR                                           FLAG TABLE  33037          0            0  20".
Definition b8549 : text := cr " 033038 QUALITY FLAGS FOR GROUND-BASED GNSS DATA                         FLAG TABLE 33038           0            0  10".
Definition b8550 : text := cr " 033039 QUALITY FLAGS FOR RADIO OCCULTATION DATA                         FLAG TABLE 33039           0            0  16".
Definition b8551 : text := " 002165 RADIANCE FLAG                                                    FLAG TABLE 2165            0            0  15 FLAG TABLE 2165           0         5".
Definition b8552 : text := " 022186 DIRECTION FROM WHICH WAVES ARE COMING                            DEGREE TRUE                0            0   9 DEGREE TRUE               0         3".
Definition b8553 : text := " 022187 DIRECTION SPREAD OF WAVE                                         DEGREE TRUE                0            0   9 DEGREE TRUE               0         3".
Definition b8554 : text := " 001037 SIGMET SEQUENCE IDENTIFIER                                       CCITTIA5                   0            0  24 CHARACTER                 0         3 ".
Definition b8555 : text := " 001102 NATIONAL STATION IDENTIFIER                                      NUMERIC                    0            0  30 NUMERIC                   0         9".
Definition b8556 : text := " 001192 MODEL VERSION NUMBER                                             CODE TABLE 001192          0            0   8".
Definition b8557 : text := " 002098 TYPE OF WAVE SENSOR                                              CODE TABLE 2098            0            0   4 CODE TABLE 2098           0         2".
Definition b8558 : text := " 002200 LATITUDINAL RESOLUTION                                           DEGREE                     5            0  25".
Definition b8559 : text := " 002201 LONGITUDINAL RESOLUTION                                          DEGREE                     5            0  25".
Definition b8560 : text := " 002205 LATITUDINAL RESOLUTION                                           DEGREE                     3            0   9".
Definition b8561 : text := " 002207 TYPE OF SCAN                                                     CODE TABLE 2207            0            0   3".
Definition b8562 : text := cr " 007030 HEIGHT OF STATION GROUND ABOVE MEAN SEA LEVEL (SEE NOTE 3)       M                          1        -4000  17 M                         1         5".
Definition b8563 : text := cr " 007031 HEIGHT OF BAROMETER ABOVE MEAN SEA LEVEL (SEE NOTE 4)            M                          1        -4000  17 M                         1         5".
Definition b8564 : text := " 008044 CAS REGISTRY NUMBER                                              CCITTIA5                   0            0  88 CHARACTERS                0        11".
Definition b8565 : text := " 008090 DECIMAL SCALE                                                    NUMERIC                    0         -127   8 NUMERIC                   0         3".
Definition b8566 : text := cr " 010083 SQUARED OFF NADIR ANGLE OF THE SATELLITE FROM PLATFORM DATA      DEGREE**2                  2            0  16 DEGREE**2                 2         5".
Definition b8567 : text := cr " 010084 SQUARED OFF NADIR ANGLE OF THE SATELLITE FROM WAVEFORM DATA      DEGREE**2                  2            0  16 DEGREE**2                 2         5".
Definition b8568 : text := " 010096 MEAN DYNAMIC TOPOGRAPHY                                          M                          3      -131072  18".
Definition b8569 : text := " 010097 MEAN SEA SURFACE HEIGHT FROM ALTIMETER ONLY                      M                          3      -131072  18".
Definition b8570 : text := " 010098 LOADING TIDE HEIGHT GEOCENTRIC OCEAN TIDE SOLUTION 1             M                          4        -2000  12".
Definition b8571 : text := " 010099 LOADING TIDE HEIGHT GEOCENTRIC OCEAN TIDE SOLUTION 2             M                          4        -2000  12".
Definition b8572 : text := " 010100 NON-EQUILIBRIUM LONG PERIOD TIDE HEIGHT                          M                          4        -2000  12".
Definition b8573 : text := " 010101 SQUARED OFF NADIR ANGLE OF THE SATELLITE FROM WAVEFORM  DATA     DEGREE**2                  2       -32768  16 DEGREE**2                 2         5".
Definition b8574 : text := " 011097 WIND SPEED FROM ALTIMETER                                        M/S                        2            0  12".
Definition b8575 : text := " 011098 WIND SPEED FROM RADIOMETER                                       M/S                        2            0  12".
Definition b8576 : text := " 012168 RADIOMETRIC ACCURACY ( CRESS POLARISATION )                      K                          1            0   9 K                         1         3".
Definition b8577 : text := " 012201 BRIGHTNES TEMPERATURE OR STOKES PARAMETER                        K                          3      -271300  20".
Definition b8578 : text := cr " 014045 CHANNEL RADIANCE                                                 (W/M**2)*(1/SR)*(1/CM)     0            0  11 WM-2SR-1CM-1              0         4".
Definition b8579 : text := " 015008 SCALED MIXING RATIO                                              NUMERIC                    0            0  10 NUMERIC                   0         4".
Definition b8580 : text := " 015231 ATMOSPHERIC PATH DELAY IN SATELLITE SIGNAL                       M                          4            0  15".
Definition b8581 : text := " 020192 SPECIAL PHENOMENA                                                CODE TABLE 020192          0            0  14".
Definition b8582 : text := " 021145 KU BAND AUTOMATIC GAIN CONTROL                                   dB                         2            0  13".
Definition b8583 : text := " 021146 RMS KU BAND AUTOMATIC GAIN CONTROL                               dB                         2            0   8".
Definition b8584 : text := " 021147 NUMBER OF VALID POINTS FOR KU BAND AUTOMATIC GAIN CONTROL        NUMERIC                    0            0   5".
Definition b8585 : text := " 021169 ICE PRESENCE INDICATOR                                           CODE TABLE                 0            0   2".
Definition b8586 : text := " 021170 C BAND CORRECTED OCEAN BACKSCATTER COEFICIENT                    dB                         2       -32768  16".
Definition b8587 : text := " 021171 RMS C BAND CORRECTED OCEAN BACKSCATTER COEFICIENT                dB                         2       -32768  16".
Definition b8588 : text := " 021172 C BAND NET INSTRUMENTAL CORRECTION FOR AGC                       dB                         2        -2048  12".
Definition b8589 : text := " 021173 C BAND AUTOMATIC GAIN CONTROL                                    dB                         2            0  13".
Definition b8590 : text := " 021174 RMS C BAND AUTOMATIC GAIN CONTROL                                dB                         2            0   9".
Definition b8591 : text := " 021175 NUMBER OF VALID POINTS FOR C BAND AUTOMATIC GAIN CONTROL         NUMERIC                    0            0  10".
Definition b8592 : text := " 021227 GLARE ANGLE                                                      CODE TABLE 21227           0            6   6".
Definition b8593 : text := " 022162 RMS OF 20Hz KU BAND OCEAN RANGE                                  M                          3            0  16".
Definition b8594 : text := " 022163 NUMBER OF 20Hz VALID POINTS FOR KU BAND                          NUMERIC                    0            0  10".
Definition b8595 : text := " 022164 RMS 20Hz KU BAND SIGNIFICANT WAVE HEIGHT                         M                          3            0  16".
Definition b8596 : text := " 022165 NUMBER OF 20Hz VALID POINTS FOR KU BAND SIGNIFICANT WAVE HEIGHT  NUMERIC                    0            0  10".
Definition b8597 : text := " 022166 KU BAND NET INSTRUMENTAL CORRECTION FOR SIGNIFICANT WAVE HEIGHT  M                          3        -1000  11".
Definition b8598 : text := " 022167 NUMBER OF VALID POINTS FOR KU BAND BACKSCATTER                   NUMERIC                    0            0  10".
Definition b8599 : text := " 022168 C BAND OCEAN RANGE                                               M                          3            0  31".
Definition b8600 : text := " 022169 RMS OF C BAND OCEAN RANGE                                        M                          3            0  16".
Definition b8601 : text := " 022170 NUMBER OF 20Hz VALID POINTS FOR C BAND                           NUMERIC                    0            0  10".
Definition b8602 : text := " 022171 C BAND SIGNIFICANT WAVE HEIGHT                                   M                          3            0  16".
Definition b8603 : text := " 022172 RMS 20Hz C BAND SIGNIFICANT WAVE HEIGHT                          M                          3            0  16".
Definition b8604 : text := " 022173 NUMBER OF 20Hz VALID POINTS FOR C BAND                           NUMERIC                    0            0  10".
Definition b8605 : text := " 022174 C BAND NET INSTRUMENTAL CORRECTION FOR SIGNIFICANT WAVE HEIGHT   M                          3        -1000  11".
Definition b8606 : text := " 022175 NUMBER OF VALID POINTS FOR C BAND BACKSCATTER                    NUMERIC                    0            0  10".
Definition b8607 : text := " 022186 DIRECTION FROM WHICH WAVES ARE COMING                            DEGREE TRUE                0            0   9".
Definition b8608 : text := " 022187 DIRECTIONAL SPREAD OF WAVES                                      DEGREE                     0            0   9 ".
Definition b8609 : text := " 025050 PRINCIPAL COMPONENT SCORE                                        NUMERIC                    4      -131072  18".
Definition b8610 : text := " 025105 FIRST DIRECTIONAL BIN                                            DEGREES                    3            0  19".
Definition b8611 : text := " 025106 DIRECTIONAL BIN STEP                                             DEGREES                    3            0  19".
Definition b8612 : text := " 025110 IMAGE PROCESSING SUMMARY                                         FLAG TABLE 25110           0            0  10".
Definition b8613 : text := " 025160 KU BAND INSTRUMENTAL CORRECTION                                  M                          4      -120000  18".
Definition b8614 : text := " 025161 C BAND INSTRUMENTAL CORRECTION                                   M                          4      -120000  18".
Definition b8615 : text := " 025162 SEA STATE BIAS CORRECTION ON C BAND                              M                          4        -6000  13".
Definition b8616 : text := " 025163 ALTIMETER IONOSPHERIC CORRECTION ON KU BAND                      M                          3       -32768  16".
Definition b8617 : text := " 025164 RADIOMETER WET                                                   M                          4        -5000  13".
Definition b8618 : text := " 025207 COMPASS AZIMUTH ANGLE                                            DEGREE                     2            0  16".
Definition b8619 : text := " 031192 DATA PRESENT INDICATOR                                           NUMERIC                    0            0   1".
Definition b8620 : text := " 033191 ECMWF WAM QC INDICATOR                                           CODE TABLE 033191          0            0   2".
Definition b8621 : text := " 033192 TEM1 CONFIDENCE                                                  %                          0            0   7".
Definition b8622 : text := " 040013 RADIOMETER BRIGHTNESS TEMPERATURE INTERPOLATION FLAG             CODE TABLE 40013           0            0   3".
Definition b8623 : text := " 040014 HIGH FREQUENCY FLUCTUATIONS OF THE SEA SURFACE TOPOGRAPHY CORRECTM                          4        -3000  13".
Definition b8624 : text := " 040018 GLACAVGLMAGLLS - AVERAGE OF IMAGER MEASUREMENTS                  W/(M**2 SR M**-1)          6            0  24".
Definition b8625 : text := " 040019 GLACVARLMAGLLS - VARIANCE OF IMAGER MEASUREMENTS                 W/(M**2 SR M**-1)          6            0  24".
Definition b8626 : text := " 040021 FRACTION OF WEIGHTED AVHRR PIXEL IN IASI FOV COVERED WITH SNOW/IC%                          0            0   7".
Definition b8627 : text := " 040192 CLOUD FORMATION AND HEIGHT ASSIGNMENT                            FLAG TABLE 40192           0            0  16".
Definition b8628 : text := " 040193 INSTRUMENT DETECTING CLOUDS                                      FLAG TABLE 40193           0            0  16".
Definition b8629 : text := " 040194 VALIDATION FLAG FOR IASI LEVEL 1 PRODUCT                         FLAG TABLE 40194           0            0  16".
Definition b8630 : text := " 040195 QUALITY AND COMPLETENESS OF RETRIEVAL                            CODE TABLE 40195           0            0   4".
Definition b8631 : text := " 040196 RETRIEVAL CHOICE INDICATOR                                       FLAG TABLE 40196           0            0   8".
Definition b8632 : text := " 040197 SATELLITE MANOEUVRE INDICATOR                                    CODE TABLE 40197           0            0   3".
Definition b8633 : text := " 040198 SELECTION OF BACKGROUND STATE                                    CODE TABLE 40198           0            0   3".
Definition b8634 : text := " 040199 INTEGRATED N2O DENSITY                                           KG/M**2                    6            0  16".
Definition b8635 : text := " 040200 INTEGRATED CO DENSITY                                            KG/M**2                    7            0  16".
Definition b8636 : text := " 040201 INTEGRATED CH4 DENSITY                                           KG/M**2                    6            0  16".
Definition b8637 : text := " 040202 INTEGRATED CO2 DENSITY                                           KG/M**2                    3            0  16".
Definition b8638 : text := " 040203 COLD/WARM LOAD FLAG                                              FLAG TABLE 40203           0            0  12".
Definition b8639 : text := " 040210 OCEANSAT2 SIGMA_0 FLAG                                           FLAG TABLE 40210           0            0  25".
Definition b8640 : text := " 055003 DATA EXTRACTION INDICATOR                                        FLAG TABLE  55003          0            0   8".
Definition b8641 : text := " 000001 TABLE A:  ENTRY                                                  CCITTIA5                   0            0  24  ".
Definition b8642 : text := " 000002 TABLE A:  DATA CATEGORY DESCRIPTION, LINE 1                      CCITTIA5                   0            0 256  ".
Definition b8643 : text := " 000003 TABLE A:  DATA CATEGORY DESCRIPTION, LINE 2                      CCITTIA5                   0            0 256  ".
Definition b8644 : text := " 000005 BUFR/CREX EDITION NUMBER                                         CCITTIA5                   0            0  24  ".
Definition b8645 : text := " 000010 F DESCRIPTOR TO BE ADDED OR DEFINED                              CCITTIA5                   0            0   8  ".
Definition b8646 : text := " 000011 X DESCRIPTOR TO BE ADDED OR DEFINED                              CCITTIA5                   0            0  16  ".
Definition b8647 : text := " 000012 Y DESCRIPTOR TO BE ADDED OR DEFINED                              CCITTIA5                   0            0  24  ".
Definition b8648 : text := " 000013 ELEMENT NAME, LINE 1                                             CCITTIA5                   0            0 256  ".
Definition b8649 : text := " 000014 ELEMENT NAME, LINE 2                                             CCITTIA5                   0            0 256  ".
Definition b8650 : text := " 000015 UNITS NAME                                                       CCITTIA5                   0            0 192  ".
Definition b8651 : text := " 000016 UNITS SCALE SIGN                                                 CCITTIA5                   0            0   8  ".
Definition b8652 : text := " 000017 UNITS SCALE                                                      CCITTIA5                   0            0  24  ".
Definition b8653 : text := " 000018 UNITS REFERENCE SIGN                                             CCITTIA5                   0            0   8  ".
Definition b8654 : text := " 000019 UNITS REFERENCE VALUE                                            CCITTIA5                   0            0  80  ".
Definition b8655 : text := " 000020 ELEMENT DATA WIDTH                                               CCITTIA5                   0            0  24  ".
Definition b8656 : text := " 000030 DESCRIPTOR DEFINING SEQUENCE                                     CCITTIA5                   0            0  48  ".
Definition b8657 : text := " 001001 WMO BLOCK NUMBER                                                 NUMERIC                    0            0   7  ".
Definition b8658 : text := " 001002 WMO STATION NUMBER                                               NUMERIC                    0            0  10  ".
Definition b8659 : text := " 001003 WMO REGION NUMBER/GEOGRAPHICAL AREA                              CODE TABLE 001003          0            0   3  ".
Definition b8660 : text := " 001004 WMO REGION SUB-AREA (SEE NOTE 9)                                 NUMERIC                    0            0   3  ".
Definition b8661 : text := " 001005 BUOY/PLATFORM IDENTIFIER                                         NUMERIC                    0            0  17  ".
Definition b8662 : text := " 001006 AIRCRAFT FLIGHT NUMBER                                           CCITTIA5                   0            0  64  ".
Definition b8663 : text := " 001007 SATELLITE IDENTIFIER                                             CODE TABLE 001007          0            0  10  ".
Definition b8664 : text := " 001008 AIRCRAFT REGISTRATION NUMBER OR OTHER IDENTIFICATION             CCITTIA5                   0            0  64  ".
Definition b8665 : text := " 001009 TYPE OF COMMERCIAL AIRCRAFT                                      CCITTIA5                   0            0  64  ".
Definition b8666 : text := " 001010 STATIONARY BUOY PLATFORM IDENTIFIER; E.G. C-MAN BUOYS            CCITTIA5                   0            0  64  ".
Definition b8667 : text := " 001011 SHIP OR MOBILE LAND STATION IDENTIFIER                           CCITTIA5                   0            0  72  ".
Definition b8668 : text := " 001012 DIRECTION OF MOTION OF MOVING OBSERVING PLATFORM**               DEGREE TRUE                0            0   9  ".
Definition b8669 : text := " 001013 SPEED OF MOTION OF MOVING OBSERVING PLATFORM*                    M/S                        0            0  10  ".
Definition b8670 : text := " 001014 PLATFORM DRIFT SPEED (HIGH PRECISION)                            M/S                        2            0  10  ".
Definition b8671 : text := " 001015 STATION OR SITE NAME                                             CCITTIA5                   0            0 160  ".
Definition b8672 : text := " 001018 SHORT STATION OR SITE NAME                                       CCITTIA5                   0            0  40  ".
Definition b8673 : text := " 001019 LONG STATION OR SITE NAME                                        CCITTIA5                   0            0 256  ".
Definition b8674 : text := " 001020 WMO REGION SUB-AREA                                              NUMERIC                    0            0   4  ".
Definition b8675 : text := " 001021 SYNOPTIC FEATURE IDENTIFIER                                      NUMERIC                    0            0  14  ".
Definition b8676 : text := " 001022 NAME OF FEATURE (SEE NOTE 11)                                    CCITTIA5                   0            0 224  ".
Definition b8677 : text := " 001023 OBSERVATION SEQUENCE NUMBER                                      NUMERIC                    0            0   9  ".
Definition b8678 : text := " 001025 STORM IDENTIFIER                                                 CCITTIA5                   0            0  24  ".
Definition b8679 : text := " 001026 WMO STORM NAME                                                   CCITTIA5                   0            0  64  ".
Definition b8680 : text := " 001027 WMO LONG STORM NAME                                              CCITTIA5                   0            0  80  ".
Definition b8681 : text := " 001030 (VAL) NUMERICAL MODEL IDENTIFIER (SEE NOTE 13)                   CCITTIA5                   0            0 128  ".
Definition b8682 : text := " 001031 IDENTIFICATION OF ORIGINATING/GENERATING CENTRE (SEE NOTE 10)    CODE TABLE 001031          0            0  16  ".
Definition b8683 : text := " 001032 GENERATING APPLICATION                                           CODE TABLE 001032          0            0   8  ".
Definition b8684 : text := " 001033 IDENTIFICATION OF ORIGINATING/GENERATING CENTRE                  CODE TABLE 001033          0            0   8  ".
Definition b8685 : text := " 001034 IDENTIFICATION OF ORIGINATING/GENERATING SUB-CENTRE              CODE TABLE 001034          0            0   8  ".
Definition b8686 : text := " 001035 ORIGINATING CENTRE                                               COMMON CODE TABLE C-11     0            0  16  ".
Definition b8687 : text := " 001036 AGENCY IN CHARGE OF OPERATING THE OBSERVING PLATFORM             CODE TABLE 001036          0            0  20  ".
Definition b8688 : text := " 001037 (VAL) SIGMET SEQUENCE IDENTIFIER                                 CCITTIA5                   0            0  24  ".
Definition b8689 : text := " 001041 ABSOLUTE PLATFORM VELOCITY - FIRST COMPONENT (SEE NOTE 6)        M/S                        5  -1073741824  31  ".
Definition b8690 : text := " 001042 ABSOLUTE PLATFORM VELOCITY - SECOND COMPONENT (SEE NOTE 6)       M/S                        5  -1073741824  31  ".
Definition b8691 : text := " 001043 ABSOLUTE PLATFORM VELOCITY - THIRD COMPONENT (SEE NOTE 6)        M/S                        5  -1073741824  31  ".
Definition b8692 : text := " 001050 PLATFORM TRANSMITTER ID NUMBER                                   NUMERIC                    0            0  17  ".
Definition b8693 : text := " 001051 PLATFORM TRANSMITTER ID NUMBER                                   CCITTIA5                   0            0  96  ".
Definition b8694 : text := " 001060 AIRCRAFT REPORTING POINT (BEACON IDENTIFIER)                     CCITTIA5                   0            0  64  ".
Definition b8695 : text := " 001062 SHORT ICAO LOCATION INDICATOR                                    CCITTIA5                   0            0  32  ".
Definition b8696 : text := " 001063 ICAO LOCATION INDICATOR                                          CCITTIA5                   0            0  64  ".
Definition b8697 : text := " 001064 RUNWAY DESIGNATOR                                                CCITTIA5                   0            0  32  ".
Definition b8698 : text := " 001065 (VAL) ICAO REGION IDENTIFIER                                     CCITTIA5                   0            0 256  ".
Definition b8699 : text := " 001075 TIDE STATION IDENTIFICATION                                      CCITTIA5                   0            0  40  ".
Definition b8700 : text := " 001080 SHIP LINE NUMBER ACCORDING TO SOOP                               CCITTIA5                   0            0  32  ".
Definition b8701 : text := " 001081 RADIOSONDE SERIAL NUMBER                                         CCITTIA5                   0            0 160  ".
Definition b8702 : text := " 001082 RADIOSONDE ASCENSION NUMBER (SEE NOTE 12)                        NUMERIC                    0            0  14  ".
Definition b8703 : text := " 001083 RADIOSONDE RELEASE NUMBER (SEE NOTE 12)                          NUMERIC                    0            0   3  ".
Definition b8704 : text := " 001085 OBSERVING PLATFORM MANUFACTURER'S MODEL                          CCITTIA5                   0            0 160  ".
Definition b8705 : text := " 001086 OBSERVING PLATFORM MANUFACTURER'S SERIAL NUMBER                  CCITTIA5                   0            0 256  ".
Definition b8706 : text := " 001090 TECHNIQUE FOR MAKING UP INITIAL PERTURBATIONS                    CODE TABLE 001090          0            0   8  ".
Definition b8707 : text := " 001091 ENSEMBLE MEMBER NUMBER                                           NUMERIC                    0            0  10  ".
Definition b8708 : text := " 001092 TYPE OF ENSEMBLE FORECAST                                        CODE TABLE 001092          0            0   8  ".
Definition b8709 : text := " 001093 BALLOON LOT NUMBER                                               CCITTIA5                   0            0  96  ".
Definition b8710 : text := " 001094 WBAN NUMBER                                                      NUMERIC                    0            0  17  ".
Definition b8711 : text := " 001095 OBSERVER IDENTIFICATION                                          CCITTIA5                   0            0  32  ".
Definition b8712 : text := " 001096 (CBS) STATION ACQUISITION                                        CCITTIA5                   0            0 160  ".
Definition b8713 : text := " 001192 MODEL VERSION NUMBER                                             CODE TABLE 001192          0            0   8  ".
Definition b8714 : text := " 001193 SIGMA_0 SIMULATION METHOD                                        CODE TABLE 001193          0            0   4  ".
Definition b8715 : text := " 001197 RTP - PLATFORM TYPE                                              CODE TABLE 001197          0            0  10  ".
Definition b8716 : text := " 001198 ITP - DECK ID                                                    CODE TABLE 001198          0            0  10  ".
Definition b8717 : text := " 001199 DUP - DUPLICATE STATUS                                           CODE TABLE 001199          0            0   4  ".
Definition b8718 : text := " 001201 GENERATING APPLICATION                                           CODE TABLE 001201          0            0   8  ".
Definition b8719 : text := " 001205 SATELLITE IDENTIFIER                                             CODE TABLE 001205          0            0  10  ".
Definition b8720 : text := " 001212 AIR QUALITY OBSERVING STATION LOCAL CODE                         CCITTIA5                   0            0  56  ".
Definition b8721 : text := " 001213 AIRBASE AIR QUALITY OBSERVING STATION CODE                       CCITTIA5                   0            0  56  ".
Definition b8722 : text := " 001214 GEMS AIR QUALITY OBSERVING STATION CODE                          CCITTIA5                   0            0  48  ".
Definition b8723 : text := " 001215 AIR QUALITY OBSERVING STATION DOMINANT EMISSION SOURCE           CODE TABLE 001215          0            0   3  ".
Definition b8724 : text := " 001216 AIR QUALITY OBSERVING STATION AREA TYPE                          CODE TABLE 001216          0            0   3  ".
Definition b8725 : text := " 001217 AIR QUALITY OBSERVING STATION TERRAIN TYPE                       CODE TABLE 001217          0            0   4  ".
Definition b8726 : text := " 002001 TYPE OF STATION                                                  CODE TABLE 002001          0            0   2  ".
Definition b8727 : text := " 002002 TYPE OF INSTRUMENTATION FOR WIND MEASUREMENT                     FLAG TABLE 002002          0            0   4  ".
Definition b8728 : text := " 002003 TYPE OF MEASURING EQUIPMENT USED                                 CODE TABLE 002003          0            0   4  ".
Definition b8729 : text := " 002004 TYPE OF INSTRUMENTATION FOR EVAPORATION MEASUREMENT OR TYPE OF C CODE TABLE 002004          0            0   4  ".
Definition b8730 : text := " 002005 PRECISION OF TEMPERATURE OBSERVATION                             K                          2            0   7  ".
Definition b8731 : text := " 002011 RADIOSONDE TYPE                                                  CODE TABLE 002011          0            0   8  ".
Definition b8732 : text := " 002012 RADIOSONDE COMPUTATIONAL METHOD                                  CODE TABLE 002012          0            0   4  ".
Definition b8733 : text := " 002013 SOLAR AND INFRARED RADIATION CORRECTION                          CODE TABLE 002013          0            0   4  ".
Definition b8734 : text := " 002014 TRACKING TECHNIQUE/STATUS OF SYSTEM USED                         CODE TABLE 002014          0            0   7  ".
Definition b8735 : text := " 002015 RADIOSONDE COMPLETENESS                                          CODE TABLE 002015          0            0   4  ".
Definition b8736 : text := " 002016 RADIOSONDE CONFIGURATION                                         FLAG TABLE 002016          0            0   5  ".
Definition b8737 : text := " 002019 SATELLITE INSTRUMENTS                                            CODE TABLE 002019          0            0  11  ".
Definition b8738 : text := " 002020 SATELLITE CLASSIFICATION                                         CODE TABLE 002020          0            0   9  ".
Definition b8739 : text := " 002021 SATELLITE INSTRUMENT DATA USED IN PROCESSING                     FLAG TABLE 002021          0            0   9  ".
Definition b8740 : text := " 002022 SATELLITE DATA-PROCESSING TECHNIQUE USED                         FLAG TABLE 002022          0            0   8  ".
Definition b8741 : text := " 002023 SATELLITE DERIVED WIND COMPUTATION METHOD                        CODE TABLE 002023          0            0   4  ".
Definition b8742 : text := " 002024 INTEGRATED MEAN HUMIDITY COMPUTATIONAL METHOD                    CODE TABLE 002024          0            0   4  ".
Definition b8743 : text := " 002025 SATELLITE CHANNEL(S) USED IN COMPUTATION                         FLAG TABLE 002025          0            0  25  ".
Definition b8744 : text := " 002026 CROSS TRACK RESOLUTION                                           M                          2            0  12  ".
Definition b8745 : text := " 002027 ALONG TRACK RESOLUTION                                           M                          2            0  12  ".
Definition b8746 : text := " 002028 SEGMENT SIZE AT NADIR IN X DIRECTION                             M                          0            0  18  ".
Definition b8747 : text := " 002029 SEGMENT SIZE AT NADIR IN Y DIRECTION                             M                          0            0  18  ".
Definition b8748 : text := " 002030 METHOD OF CURRENT MEASUREMENT                                    CODE TABLE 002030          0            0   3  ".
Definition b8749 : text := " 002031 DURATION AND TIME OF CURRENT MEASUREMENT                         CODE TABLE 002031          0            0   5  ".
Definition b8750 : text := " 002032 INDICATOR FOR DIGITIZATION                                       CODE TABLE 002032          0            0   2  ".
Definition b8751 : text := " 002033 METHOD OF SALINITY/DEPTH MEASUREMENT                             CODE TABLE 002033          0            0   3  ".
Definition b8752 : text := " 002034 DROGUE TYPE                                                      CODE TABLE 002034          0            0   5  ".
Definition b8753 : text := " 002035 CABLE LENGTH                                                     M                          0            0   9  ".
Definition b8754 : text := " 002036 BUOY TYPE                                                        CODE TABLE 002036          0            0   2  ".
Definition b8755 : text := " 002037 METHOD OF TIDAL OBSERVATION                                      CODE TABLE 002037          0            0   3  ".
Definition b8756 : text := " 002038 METHOD OF WATER TEMPERATURE AND/OR SALINITY MEASUREMENT          CODE TABLE 002038          0            0   4  ".
Definition b8757 : text := " 002039 METHOD OF WET-BULB TEMPERATURE MEASUREMENT                       CODE TABLE 002039          0            0   3  ".
Definition b8758 : text := " 002040 METHOD OF REMOVING VELOCITY AND MOTION OF PLATFORM FROM CURRENT  CODE TABLE 002040          0            0   4  ".
Definition b8759 : text := " 002041 METHOD FOR ESTIMATING REPORTS RELATED TO SYNOPTIC FEATURES       CODE TABLE 002041          0            0   6  ".
Definition b8760 : text := " 002044 INDICATOR FOR METHOD OF CALCULATING SPECTRAL WAVE DATA           CODE TABLE 002044          0            0   4  ".
Definition b8761 : text := " 002045 INDICATOR FOR TYPE OF PLATFORM                                   CODE TABLE 002045          0            0   4  ".
Definition b8762 : text := " 002046 WAVE MEASUREMENT INSTRUMENTATION                                 CODE TABLE 002046          0            0   4  ".
Definition b8763 : text := " 002048 SATELLITE SENSOR INDICATOR                                       CODE TABLE 002048          0            0   4  ".
Definition b8764 : text := " 002049 GEOSTATIONARY SATELLITE DATA-PROCESSING TECHNIQUE USED           FLAG TABLE 002049          0            0   8  ".
Definition b8765 : text := " 002050 GEOSTATIONARY SOUNDER SATELLITE CHANNELS USED                    FLAG TABLE 002050          0            0  20  ".
Definition b8766 : text := " 002051 INDICATOR TO SPECIFY OBSERVING METHOD FOR EXTREME TEMPERATURES   CODE TABLE 002051          0            0   4  ".
Definition b8767 : text := " 002052 GEOSTATIONARY IMAGER SATELLITE CHANNELS USED                     FLAG TABLE 002052          0            0   6  ".
Definition b8768 : text := " 002053 GOES-I/M BRIGHTNESS TEMPERATURE CHARACTERISTICS                  CODE TABLE 002053          0            0   4  ".
Definition b8769 : text := " 002054 GOES-I/M SOUNDINGS PARAMETER CHARACTERISTICS                     CODE TABLE 002054          0            0   4  ".
Definition b8770 : text := " 002055 GEOSTATIONARY SOUNDINGS STATISTICAL PARAMETERS                   CODE TABLE 002055          0            0   4  ".
Definition b8771 : text := " 002056 GEOSTATIONARY SOUNDINGS ACCURACY STATISTICS                      CODE TABLE 002056          0            0   4  ".
Definition b8772 : text := " 002057 ORIGIN OF FIRST GUESS INFORMATION FOR GOES-I/M SOUNDINGS         CODE TABLE 002057          0            0   4  ".
Definition b8773 : text := " 002058 VALID TIMES OF FIRST GUESS INFORMATION FOR GOES-I/M SOUNDINGS    CODE TABLE 002058          0            0   4  ".
Definition b8774 : text := " 002059 ORIGIN OF ANALYSIS INFORMATION FOR GOES-I/M SOUNDINGS            CODE TABLE 002059          0            0   4  ".
Definition b8775 : text := " 002060 ORIGIN OF SURFACE INFORMATION FOR GOES-I/M SOUNDINGS             CODE TABLE 002060          0            0   4  ".
Definition b8776 : text := " 002061 AIRCRAFT NAVIGATIONAL SYSTEM                                     CODE TABLE 002061          0            0   3  ".
Definition b8777 : text := " 002062 TYPE OF AIRCRAFT DATA RELAY SYSTEM                               CODE TABLE 002062          0            0   4  ".
Definition b8778 : text := " 002063 AIRCRAFT ROLL ANGLE                                              DEGREE                     2       -18000  16  ".
Definition b8779 : text := " 002064 AIRCRAFT ROLL ANGLE QUALITY                                      CODE TABLE 002064          0            0   2  ".
Definition b8780 : text := " 002065 ACARS GROUND RECEIVING STATION                                   CCITTIA5                   0            0  40  ".
Definition b8781 : text := " 002066 RADIOSONDE GROUND RECEIVING SYSTEM                               CODE TABLE 002066          0            0   6  ".
Definition b8782 : text := " 002067 RADIOSONDE OPERATING FREQUENCY                                   Hz                        -5            0  15  ".
Definition b8783 : text := " 002070 ORIGINAL SPECIFICATION OF LATITUDE/LONGITUDE                     CODE TABLE 002070          0            0   4  ".
Definition b8784 : text := " 002071 (VAL) SPECTROGRAPHIC WAVELENGTH                                  M                         13            0  30  ".
Definition b8785 : text := " 002072 (VAL) SPECTROGRAPHIC WIDTH                                       M                         13            0  30  ".
Definition b8786 : text := " 002080 BALLOON MANUFACTURER                                             CODE TABLE 002080          0            0   6  ".
Definition b8787 : text := " 002081 TYPE OF BALLOON                                                  CODE TABLE 002081          0            0   5  ".
Definition b8788 : text := " 002082 WEIGHT OF BALLOON                                                KG                         3            0  12  ".
Definition b8789 : text := " 002083 TYPE OF BALLOON SHELTER                                          CODE TABLE 002083          0            0   4  ".
Definition b8790 : text := " 002084 TYPE OF GAS USED IN BALLOON                                      CODE TABLE 002084          0            0   4  ".
Definition b8791 : text := " 002085 AMOUNT OF GAS USED IN BALLOON                                    KG                         3            0  13  ".
Definition b8792 : text := " 002086 BALLOON FLIGHT TRAIN LENGTH                                      M                          1            0  10  ".
Definition b8793 : text := " 002091 ENTRY SENSOR 4/20 MA                                             A                          4            0  10  ".
Definition b8794 : text := " 002095 TYPE OF PRESSURE SENSOR                                          CODE TABLE 002095          0            0   5  ".
Definition b8795 : text := " 002096 TYPE OF TEMPERATURE SENSOR                                       CODE TABLE 002096          0            0   5  ".
Definition b8796 : text := " 002097 TYPE OF HUMIDITY SENSOR                                          CODE TABLE 002097          0            0   5  ".
Definition b8797 : text := " 002100 RADAR CONSTANT                                                   dB                         1            0  12  ".
Definition b8798 : text := " 002101 TYPE OF ANTENNA                                                  CODE TABLE 002101          0            0   4  ".
Definition b8799 : text := " 002102 ANTENNA HEIGHT ABOVE TOWER BASE                                  M                          0            0   8  ".
Definition b8800 : text := " 002103 RADOME                                                           FLAG TABLE 002103          0            0   2  ".
Definition b8801 : text := " 002104 ANTENNA POLARISATION                                             CODE TABLE 002104          0            0   4  ".
Definition b8802 : text := " 002105 MAXIMUM ANTENNA GAIN                                             dB                         0            0   6  ".
Definition b8803 : text := " 002106 3-DB BEAMWIDTH                                                   DEGREE                     1            0   6  ".
Definition b8804 : text := " 002107 SIDELOBE SUPPRESSION                                             dB                         0            0   6  ".
Definition b8805 : text := " 002108 CROSSPOL DISCRIMINATION (ON AXIS)                                dB                         0            0   6  ".
Definition b8806 : text := " 002109 ANTENNA SPEED (AZIMUTH)                                          DEGREE/S                   2            0  12  ".
Definition b8807 : text := " 002110 ANTENNA SPEED (ELEVATION)                                        DEGREE/S                   2            0  12  ".
Definition b8808 : text := " 002111 RADAR INCIDENCE ANGLE                                            DEGREE                     1            0  10  ".
Definition b8809 : text := " 002112 RADAR LOOK ANGLE                                                 DEGREE                     1            0  12  ".
Definition b8810 : text := " 002113 NUMBER OF AZIMUTH LOOKS                                          NUMERIC                    0            0   4  ".
Definition b8811 : text := " 002114 ANTENNA EFFECTIVE SURFACE AREA                                   M**2                       0            0  15  ".
Definition b8812 : text := " 002115 TYPE OF SURFACE OBSERVING EQUIPMENT                              CODE TABLE 002115          0            0   5  ".
Definition b8813 : text := " 002116 (CBS) PERCENTAGE OF 320 MHZ BAND PROCESSED                       %                          0            0   7  ".
Definition b8814 : text := " 002117 (CBS) PERCENTAGE OF 80 MHZ BAND PROCESSED                        %                          0            0   7  ".
Definition b8815 : text := " 002118 (CBS) PERCENTAGE OF 20 MHZ BAND PROCESSED                        %                          0            0   7  ".
Definition b8816 : text := " 002119 (CBS)  RA-2 INSTRUMENT OPERATIONS                                CODE TABLE 002119          0            0   3  ".
Definition b8817 : text := " 002120 (CBS) OCEAN WAVE FREQUENCY                                       Hz                         3            0  10  ".
Definition b8818 : text := " 002121 MEAN FREQUENCY                                                   Hz                        -8            0   7  ".
Definition b8819 : text := " 002122 FREQUENCY AGILITY RANGE                                          Hz                        -6         -128   8  ".
Definition b8820 : text := " 002123 PEAK POWER                                                       W                         -4            0   7  ".
Definition b8821 : text := " 002124 AVERAGE POWER                                                    W                         -1            0   7  ".
Definition b8822 : text := " 002125 PULSE REPETITION FREQUENCY                                       Hz                        -1            0   8  ".
Definition b8823 : text := " 002126 PULSE WIDTH                                                      S                          7            0   6  ".
Definition b8824 : text := " 002127 RECEIVER INTERMEDIATE FREQUENCY                                  Hz                        -6            0   7  ".
Definition b8825 : text := " 002128 INTERMEDIATE FREQUENCY BANDWIDTH                                 Hz                        -5            0   6  ".
Definition b8826 : text := " 002129 MINIMUM DETECTABLE SIGNAL                                        dB                         0         -150   5  ".
Definition b8827 : text := " 002130 DYNAMIC RANGE                                                    dB                         0            0   7  ".
Definition b8828 : text := " 002131 SENSITIVITY TIME CONTROL (STC)                                   FLAG TABLE 002131          0            0   2  ".
Definition b8829 : text := " 002132 AZIMUTH POINTING ACCURACY                                        DEGREE                     2            0   6  ".
Definition b8830 : text := " 002133 ELEVATION POINTING ACCURACY                                      DEGREE                     2            0   6  ".
Definition b8831 : text := " 002134 ANTENNA BEAM AZIMUTH                                             DEGREE                     2            0  16  ".
Definition b8832 : text := " 002135 ANTENNA ELEVATION                                                DEGREE                     2        -9000  15  ".
Definition b8833 : text := " 002136 RANGE PROCESSED BY RANGE ATTENUATION CORRECTION                  M                         -3            0  16  ".
Definition b8834 : text := " 002140 SATELLITE RADAR BEAM AZIMUTH ANGLE                               DEGREE                     0            0   9  ".
Definition b8835 : text := " 002141 MEASUREMENT TYPE                                                 CCITTIA5                   0            0  24  ".
Definition b8836 : text := " 002142 OZONE INSTRUMENT SERIAL NUMBER/ IDENTIFICATION                   CCITTIA5                   0            0  32  ".
Definition b8837 : text := " 002143 OZONE INSTRUMENT TYPE                                            CODE TABLE 002143          0            0   7  ".
Definition b8838 : text := " 002144 LIGHT SOURCE TYPE FOR BREWER SPECTRO PHOTOMETER                  CODE TABLE 002144          0            0   4  ".
Definition b8839 : text := " 002145 WAVE LENGTH SETTING FOR DOBSON INSTRUMENTS                       CODE TABLE 002145          0            0   4  ".
Definition b8840 : text := " 002146 SOURCE CONDITIONS FOR DOBSON INSTRUMENTS                         CODE TABLE 002146          0            0   4  ".
Definition b8841 : text := " 002148 DATA COLLECTION AND/OR LOCATION SYSTEM                           CODE TABLE 002148          0            0   5  ".
Definition b8842 : text := " 002149 TYPE OF DATA BUOY                                                CODE TABLE 002149          0            0   6  ".
Definition b8843 : text := " 002150 TOVS/ATOVS/AVHRR INSTRUMENTATION CHANNEL NUMBER                  CODE TABLE 002150          0            0   6  ".
Definition b8844 : text := " 002151 RADIOMETER IDENTIFIER                                            CODE TABLE 002151          0            0  11  ".
Definition b8845 : text := " 002152 SATELLITE INSTRUMENT USED IN DATA PROCESSING(6)                  FLAG TABLE 002152          0            0  31  ".
Definition b8846 : text := " 002153 SATELLITE CHANNEL CENTRE FREQUENCY                               Hz                        -8            0  26  ".
Definition b8847 : text := " 002154 SATELLITE CHANNEL BAND WIDTH                                     Hz                        -8            0  26  ".
Definition b8848 : text := " 002156 (CBS) PERCENTAGE OF VALID KU OCEAN RETRACKER MEASUREMENTS        %                          0            0   7  ".
Definition b8849 : text := " 002157 (CBS) PERCENTAGE OF VALID S OCEAN RETRACKER MEASUREMENTS         %                          0            0   7  ".
Definition b8850 : text := " 002158 (CBS) RA-2 INSTRUMENT                                            FLAG TABLE 002158          0            0   9  ".
Definition b8851 : text := " 002159 (CBS) MWR INSTRUMENT                                             FLAG TABLE 002159          0            0   8  ".
Definition b8852 : text := " 002163 HEIGHT ASSIGNMENT METHOD                                         CODE TABLE 002163          0            0   4  ".
Definition b8853 : text := " 002164 TRACER CORRELATION METHOD                                        CODE TABLE 002164          0            0   3  ".
Definition b8854 : text := " 002166 RADIANCE TYPE                                                    CODE TABLE 002166          0            0   4  ".
Definition b8855 : text := " 002167 RADIANCE COMPUTATIONAL METHOD                                    CODE TABLE 002167          0            0   4  ".
Definition b8856 : text := " 002168 HYDROSTATIC PRESSURE OF LOWER END OF CABLE (THERMISTOR STRING)   PA                        -3            0  16  ".
Definition b8857 : text := " 002169 ANEMOMETER TYPE                                                  CODE TABLE 002169          0            0   4  ".
Definition b8858 : text := " 002171 (TBP) MODIS AEROSOL ALGORITHM                                    CODE TABLE 002171          0            0   4  ".
Definition b8859 : text := " 002172 PRODUCT TYPE FOR RETRIEVED ATMOSPHERIC GASES                     CODE TABLE 002172          0            0   8  ".
Definition b8860 : text := " 002173 SQUARE OF THE OFF NADIR ANGLE (7)                                DEGREE2                    4            0  10  ".
Definition b8861 : text := " 002174 (CBS) MEAN ACROSS TRACK PIXEL NUMBER                             NUMERIC                    0            0   9  ".
Definition b8862 : text := " 002175 METHOD OF PRECIPITATION MEASUREMENT                              CODE TABLE 002175          0            0   4  ".
Definition b8863 : text := " 002176 METHOD OF STATE OF GROUND MEASUREMENT                            CODE TABLE 002176          0            0   4  ".
Definition b8864 : text := " 002177 METHOD OF SNOW DEPTH MEASUREMENT                                 CODE TABLE 002177          0            0   4  ".
Definition b8865 : text := " 002178 METHOD OF LIQUID CONTENT MEASUREMENT OF PRECIPITATION            CODE TABLE 002178          0            0   4  ".
Definition b8866 : text := " 002179 TYPE OF SKY CONDITION ALGORITHM                                  CODE TABLE 002179          0            0   4  ".
Definition b8867 : text := " 002180 MAIN PRESENT WEATHER DETECTING SYSTEM                            CODE TABLE 002180          0            0   4  ".
Definition b8868 : text := " 002181 SUPPLEMENTARY PRESENT WEATHER SENSOR                             FLAG TABLE 002181          0            0  21  ".
Definition b8869 : text := " 002182 VISIBILITY MEASUREMENT SYSTEM                                    CODE TABLE 002182          0            0   4  ".
Definition b8870 : text := " 002183 CLOUD DETECTION SYSTEM                                           CODE TABLE 002183          0            0   4  ".
Definition b8871 : text := " 002184 TYPE OF LIGHTNING DETECTION SENSOR                               CODE TABLE 002184          0            0   4  ".
Definition b8872 : text := " 002185 METHOD OF EVAPORATION MEASUREMENT                                CODE TABLE 002185          0            0   4  ".
Definition b8873 : text := " 002186 CAPABILITY TO DETECT PRECIPITATION PHENOMENA                     FLAG TABLE 002186          0            0  30  ".
Definition b8874 : text := " 002187 CAPABILITY TO DETECT OTHER WEATHER PHENOMENA                     FLAG TABLE 002187          0            0  18  ".
Definition b8875 : text := " 002188 CAPABILITY TO DETECT OBSCURATION                                 FLAG TABLE 002188          0            0  21  ".
Definition b8876 : text := " 002189 CAPABILITY TO DISCRIMINATE LIGHTNING STRIKES                     FLAG TABLE 002189          0            0  12  ".
Definition b8877 : text := " 002190 LAGRANGIAN DRIFTER SUBMERGENCE (% TIME SUBMERGED)                %                          0            0   7  ".
Definition b8878 : text := " 002192 SAR AZIMUTH ANGLE                                                DEGREE                     0            0   9  ".
Definition b8879 : text := " 002193 1D VAR SATELLITE CHANNEL(S) USED                                 FLAG TABLE 002193          0            0  28  ".
Definition b8880 : text := " 002194 CONSTANT LEVEL BALLOON TYPE                                      CODE TABLE 002194          0            0   4  ".
Definition b8881 : text := " 002195 TYPE OF SATELLITE INSTRUMENTATION                                CODE TABLE 002195          0            0   4  ".
Definition b8882 : text := " 002196 SATELLITE CLASSIFICATION                                         CODE TABLE 002196          0            0   9  ".
Definition b8883 : text := " 002199 INTEGRATED MEAN HUMIDITY COMPUTATIONAL METHOD                    CODE TABLE 002199          0            0   4  ".
Definition b8884 : text := " 002201 SIMULATED SATELLITE INSTRUMENT                                   FLAG TABLE 002201          0            0   4  ".
Definition b8885 : text := " 002202 SIMULATED DATA PROCESSING TECHNIQUE USED                         FLAG TABLE 002202          0            0   4  ".
Definition b8886 : text := " 002220 DATA PRODUCER                                                    CODE TABLE 002220          0            0   9  ".
Definition b8887 : text := " 002223 TOVS/ATOVS/AVHRR CHANNEL NUMBER                                  CODE TABLE 002223          0            0   6  ".
Definition b8888 : text := " 002231 HEIGHT ASSIGNMENT METHOD                                         CODE TABLE 002231          0            0   4  ".
Definition b8889 : text := " 002232 TRACER CORRELATION METHOD                                        CODE TABLE 002232          0            0   3  ".
Definition b8890 : text := " 002240 TYPE OF TERMODYNAMIC SENSING                                     CODE TABLE 002240          0            0   8  ".
Definition b8891 : text := " 002241 TYPE OF ROCKET MOTOR                                             CODE TABLE 002241          0            0   3  ".
Definition b8892 : text := " 002242 TYPE OF WIND SENSING EQUIPMENT                                   CODE TABLE 002242          0            0   8  ".
Definition b8893 : text := " 002243 TERMODYNAMIC CORRECTION TECHNIQUE                                CODE TABLE 002243          0            0   3  ".
Definition b8894 : text := " 002244 WIND CORRECTION TECHNIQUE                                        CODE TABLE 002244          0            0   3  ".
Definition b8895 : text := " 002245 METHOD OF REDUCING OF DATA                                       CODE TABLE 002245          0            0   4  ".
Definition b8896 : text := " 002251 RADIANCE COMPUTATIONAL METHOD                                    CODE TABLE 002251          0            0   4  ".
Definition b8897 : text := " 002252 SATELLITE INSTRUMENT DATA USED IN PROCESSING                     FLAG TABLE 002252          0            0  31  ".
Definition b8898 : text := " 002253 HUMIDITY COMPUTATIONAL METHOD                                    CODE TABLE 002253          0            0   8  ".
Definition b8899 : text := " 002254 RADIANCE TYPE                                                    CODE TABLE 002254          0            0   4  ".
Definition b8900 : text := " 004001 YEAR                                                             YEAR                       0            0  12  ".
Definition b8901 : text := " 004002 MONTH                                                            MONTH                      0            0   4  ".
Definition b8902 : text := " 004003 DAY                                                              DAY                        0            0   6  ".
Definition b8903 : text := " 004004 HOUR                                                             HOUR                       0            0   5  ".
Definition b8904 : text := " 004005 MINUTE                                                           MINUTE                     0            0   6  ".
Definition b8905 : text := " 004006 SECOND                                                           SECOND                     0            0   6  ".
Definition b8906 : text := " 004007 SECONDS WITHIN A MINUTE (MICROSECOND ACCURACY)                   SECOND                     6            0  26  ".
Definition b8907 : text := " 004011 TIME INCREMENT                                                   YEAR                       0        -1024  11  ".
Definition b8908 : text := " 004012 TIME INCREMENT                                                   MONTH                      0        -1024  11  ".
Definition b8909 : text := " 004013 TIME INCREMENT                                                   DAY                        0        -1024  11  ".
Definition b8910 : text := " 004014 TIME INCREMENT                                                   HOUR                       0        -1024  11  ".
Definition b8911 : text := " 004015 TIME INCREMENT                                                   MINUTE                     0        -2048  12  ".
Definition b8912 : text := " 004016 TIME INCREMENT                                                   SECOND                     0        -4096  13  ".
Definition b8913 : text := " 004017 REFERENCE TIME PERIOD FOR ACCUMULATED OR EXTREME DATA            MINUTE                     0        -1440  12  ".
Definition b8914 : text := " 004021 TIME PERIOD OR DISPLACEMENT                                      YEAR                       0        -1024  11  ".
Definition b8915 : text := " 004022 TIME PERIOD OR DISPLACEMENT                                      MONTH                      0        -1024  11  ".
Definition b8916 : text := " 004023 TIME PERIOD OR DISPLACEMENT                                      DAY                        0        -1024  11  ".
Definition b8917 : text := " 004024 TIME PERIOD OR DISPLACEMENT                                      HOUR                       0        -2048  12  ".
Definition b8918 : text := " 004025 TIME PERIOD OR DISPLACEMENT                                      MINUTE                     0        -2048  12  ".
Definition b8919 : text := " 004026 TIME PERIOD OR DISPLACEMENT                                      SECOND                     0        -4096  13  ".
Definition b8920 : text := " 004031 DURATION OF TIME RELATING TO FOLLOWING VALUE                     HOUR                       0            0   8  ".
Definition b8921 : text := " 004032 DURATION OF TIME RELATING TO FOLLOWING VALUE                     MINUTE                     0            0   6  ".
Definition b8922 : text := " 004041 TIME DIFFERENCE, UTC -LMT (SEE NOTE 6)                           MINUTE                     0        -1440  12  ".
Definition b8923 : text := " 004043 DAY OF THE YEAR                                                  DAY                        0            0   9  ".
Definition b8924 : text := " 004051 PRINCIPAL TIME OF DAILY READING OF MAXIMUM TEMPERATURE           HOUR                       0            0   5  ".
Definition b8925 : text := " 004052 PRINCIPAL TIME OF DAILY READING OF MINIMUM TEMPERATURE           HOUR                       0            0   5  ".
Definition b8926 : text := " 004053 NUMBER OF DAYS WITH PRECIPITATION EQUAL TO OR MORE THAN 1 MM     NUMERIC                    0            0   6  ".
Definition b8927 : text := " 004059 TIMES OF OBSERVATION USED TO COMPUTE THE REPORTED MEAN VALUES    FLAG TABLE 004059          0            0   6  ".
Definition b8928 : text := " 004065 SHORT TIME INCREMENT                                             MINUTE                     0         -128   8  ".
Definition b8929 : text := " 004073 SHORT TIME PERIOD OR DISPLACEMENT                                DAY                        0         -128   8  ".
Definition b8930 : text := " 004074 SHORT TIME PERIOD OR DISPLACEMENT                                HOUR                       0         -128   8  ".
Definition b8931 : text := " 004075 SHORT TIME PERIOD OR DISPLACEMENT                                MINUTE                     0         -128   8  ".
Definition b8932 : text := " 004086 (CBS) LONG TIME PERIOD OR DISPLACEMENT                           SECOND                     0        -8192  15  ".
Definition b8933 : text := " 005001 LATITUDE (HIGH ACCURACY)                                         DEGREE                     5     -9000000  25  ".
Definition b8934 : text := " 005002 LATITUDE (COARSE ACCURACY)                                       DEGREE                     2        -9000  15  ".
Definition b8935 : text := " 005011 LATITUDE INCREMENT (HIGH ACCURACY)                               DEGREE                     5     -9000000  25  ".
Definition b8936 : text := " 005012 LATITUDE INCREMENT (COARSE ACCURACY)                             DEGREE                     2        -9000  15  ".
Definition b8937 : text := " 005015 (CBS) LATITUDE DISPLACEMENT (HIGH ACCURACY)                      DEGREE                     5     -9000000  25  ".
Definition b8938 : text := " 005016 (CBS) LATITUDE DISPLACEMENT (COARSE ACCURACY)                    DEGREE                     2        -9000  15  ".
Definition b8939 : text := " 005021 BEARING OR AZIMUTH                                               DEGREE TRUE                2            0  16  ".
Definition b8940 : text := " 005022 SOLAR AZIMUTH                                                    DEGREE TRUE                2            0  16  ".
Definition b8941 : text := " 005023 (CBS) SUN TO SATELLITE AZIMUTH DIFFERENCE                        DEGREE                     1        -1800  12  ".
Definition b8942 : text := " 005030 DIRECTION (SPECTRAL)                                             DEGREE                     0            0  12  ".
Definition b8943 : text := " 005031 ROW NUMBER                                                       NUMERIC                    0            0  12  ".
Definition b8944 : text := " 005033 PIXEL SIZE ON HORIZONTAL - 1                                     M                         -1            0  16  ".
Definition b8945 : text := " 005034 ALONG TRACK ROW NUMBER                                           NUMERIC                    0            0  11  ".
Definition b8946 : text := " 005036 SHIP TRANSECT NUMBER ACCORDING TO SOOP                           NUMERIC                    0            0   7  ".
Definition b8947 : text := " 005040 ORBIT NUMBER                                                     NUMERIC                    0            0  24  ".
Definition b8948 : text := " 005041 SCAN LINE NUMBER                                                 NUMERIC                    0            0   8  ".
Definition b8949 : text := " 005042 CHANNEL NUMBER                                                   NUMERIC                    0            0   6  ".
Definition b8950 : text := " 005043 FIELD OF VIEW NUMBER                                             NUMERIC                    0            0   8  ".
Definition b8951 : text := " 005044 SATELLITE CYCLE NUMBER                                           NUMERIC                    0            0  11  ".
Definition b8952 : text := " 005052 CHANNEL NUMBER INCREMENT                                         NUMERIC                    0            0   5  ".
Definition b8953 : text := " 005053 FIELD OF VIEW NUMBER INCREMENT                                   NUMERIC                    0            0   5  ".
Definition b8954 : text := " 005193 ALONG TRACK ROW NUMBER AT 50 KM                                  NUMERIC                    0            0  10  ".
Definition b8955 : text := " 005194 ALONG TRACK ROW NUMBER AT 25 KM                                  NUMERIC                    0            0  11  ".
Definition b8956 : text := " 005195 ENSEMBLE MEMBER NUMBER                                           NUMERIC                    0            0   7  ".
Definition b8957 : text := " 005217 LOCATION OF PLATFORM, X                                          M                          2  -1073741824  31  ".
Definition b8958 : text := " 005232 DIRECTION (SPECTRAL)                                             DEGREE                     2            0  16  ".
Definition b8959 : text := " 006001 LONGITUDE (HIGH ACCURACY)                                        DEGREE                     5    -18000000  26  ".
Definition b8960 : text := " 006002 LONGITUDE (COARSE ACCURACY)                                      DEGREE                     2       -18000  16  ".
Definition b8961 : text := " 006011 LONGITUDE INCREMENT (HIGH ACCURACY)                              DEGREE                     5    -18000000  26  ".
Definition b8962 : text := " 006012 LONGITUDE INCREMENT (COARSE ACCURACY)                            DEGREE                     2       -18000  16  ".
Definition b8963 : text := " 006015 (CBS) LONGITUDE DISPLACEMENT (HIGH ACCURACY)                     DEGREE                     5    -18000000  26  ".
Definition b8964 : text := " 006016 (CBS) LONGITUDE DISPLACEMENT (COARSE ACCURACY)                   DEGREE                     2       -18000  16  ".
Definition b8965 : text := " 006021 DISTANCE                                                         M                         -1            0  13  ".
Definition b8966 : text := " 006030 WAVE NUMBER (SPECTRAL)                                           RAD/M                      5            0  13  ".
Definition b8967 : text := " 006031 COLUMN NUMBER                                                    NUMERIC                    0            0  12  ".
Definition b8968 : text := " 006033 PIXEL SIZE ON HORIZONTAL - 2                                     M                         -1            0  16  ".
Definition b8969 : text := " 006034 CROSS-TRACK CELL NUMBER                                          NUMERIC                    0            0   7  ".
Definition b8970 : text := " 006040 RADIUS OF CONFIDENCE                                             M                          0            0  13  ".
Definition b8971 : text := " 006193 CROSS TRACK CELL NUMBER AT 50 KM                                 NUMERIC                    0            0   6  ".
Definition b8972 : text := " 006194 CROSS TRACK CELL NUMBER AT 25 KM                                 NUMERIC                    0            0   7  ".
Definition b8973 : text := " 006217 LOCATION OF PLATFORM, Y                                          M                          2  -1073741824  31  ".
Definition b8974 : text := " 006232 WAVENUMBER (SPECTRAL)                                            RADS/M                     5            0  13  ".
Definition b8975 : text := " 007001 HEIGHT OF STATION (SEE NOTE 1)                                   M                          0         -400  15  ".
Definition b8976 : text := " 007002 HEIGHT OR ALTITUDE                                               M                         -1          -40  16  ".
Definition b8977 : text := " 007003 GEOPOTENTIAL                                                     M**2/S**2                 -1         -400  17  ".
Definition b8978 : text := " 007004 PRESSURE                                                         PA                        -1            0  14  ".
Definition b8979 : text := " 007005 HEIGHT INCREMENT                                                 M                          0         -400  12  ".
Definition b8980 : text := " 007006 HEIGHT ABOVE STATION                                             M                          0            0  15  ".
Definition b8981 : text := " 007007 HEIGHT                                                           M                          0        -1000  17  ".
Definition b8982 : text := " 007008 GEOPOTENTIAL                                                     M**2/S**2                  0       -10000  20  ".
Definition b8983 : text := " 007009 GEOPOTENTIAL HEIGHT                                              GPM                        0        -1000  17  ".
Definition b8984 : text := " 007010 FLIGHT LEVEL                                                     M                          0        -1024  16  ".
Definition b8985 : text := " 007011 (VAL) SCALED PRESSURE                                            PA                         0            0  24  ".
Definition b8986 : text := " 007021 ELEVATION (SEE NOTE 2)                                           DEGREE                     2        -9000  15  ".
Definition b8987 : text := " 007022 SOLAR ELEVATION                                                  DEGREE                     2        -9000  15  ".
Definition b8988 : text := " 007024 SATELLITE ZENITH ANGLE                                           DEGREE                     2        -9000  15  ".
Definition b8989 : text := " 007025 SOLAR ZENITH ANGLE                                               DEGREE                     2        -9000  15  ".
Definition b8990 : text := " 007026 (CBS) SATELLITE ZENITH ANGLE                                     DEGREE                     4      -900000  21  ".
Definition b8991 : text := " 007030 HEIGHT OF STATION GROUND ABOVE MEAN SEA LEVEL (SEE NOTE 3)       M                          1        -4000  17  ".
Definition b8992 : text := " 007031 HEIGHT OF BAROMETER ABOVE MEAN SEA LEVEL (SEE NOTE 4)            M                          1        -4000  17  ".
Definition b8993 : text := " 007032 HEIGHT OF SENSOR ABOVE LOCAL GROUND (OR DECK OF MARINE PLATFORM) M                          2            0  16  ".
Definition b8994 : text := " 007033 HEIGHT OF SENSOR ABOVE WATER SURFACE (SEE NOTE 6)                M                          1            0  12  ".
Definition b8995 : text := " 007040 (CBS) IMPACT PARAMETER (SEE NOTE 10)                             M                          1     62000000  22  ".
Definition b8996 : text := " 007061 DEPTH BELOW LAND SURFACE                                         M                          2            0  14  ".
Definition b8997 : text := " 007062 DEPTH BELOW SEA/WATER SURFACE                                    M                          1            0  17  ".
Definition b8998 : text := " 007064 REPRESENTATIVE HEIGHT OF SENSOR ABOVE STATION (SEE NOTE 7)       M                          0            0   4  ".
Definition b8999 : text := " 007065 (VAL) REPRESENTATIVE HEIGHT OF SENSOR ABOVE LOCAL GROUND (OR DEC M                          2            0  16  ".
Definition b9000 : text := " 007066 (VAL)  REPRESENTATIVE HEIGHT OF SENSOR ABOVE WATER SURFACE (SEE  M                          1            0  12  ".
Definition b9001 : text := " 007070 DROGUE DEPTH                                                     M                          0            0  10  ".
Definition b9002 : text := " 007190 HEIGHT INCREMENT                                                 M                          1        -1024  12  ".
Definition b9003 : text := " 007217 LOCATION OF PLATFORM, Z                                          M                          2  -1073741824  31  ".
Definition b9004 : text := " 008001 VERTICAL SOUNDING SIGNIFICANCE                                   FLAG TABLE 008001          0            0   7  ".
Definition b9005 : text := " 008002 VERTICAL SIGNIFICANCE (SURFACE OBSERVATIONS)                     CODE TABLE 008002          0            0   6  ".
Definition b9006 : text := " 008003 VERTICAL SIGNIFICANCE (SATELLITE OBSERVATIONS)                   CODE TABLE 008003          0            0   6  ".
Definition b9007 : text := " 008004 PHASE OF AIRCRAFT FLIGHT                                         CODE TABLE 008004          0            0   3  ".
Definition b9008 : text := " 008005 METEOROLOGICAL ATTRIBUTE SIGNIFICANCE                            CODE TABLE 008005          0            0   4  ".
Definition b9009 : text := " 008006 OZONE VERTICAL SOUNDING SIGNIFICANCE                             FLAG TABLE 008006          0            0   9  ".
Definition b9010 : text := " 008007 DIMENSIONAL SIGNIFICANCE                                         CODE TABLE 008007          0            0   4  ".
Definition b9011 : text := " 008008 RADIATION VERTICAL SOUNDING SIGNIFICANCE                         FLAG TABLE 008008          0            0   9  ".
Definition b9012 : text := " 008009 DETAILED PHASE OF FLIGHT                                         CODE TABLE 008009          0            0   4  ".
Definition b9013 : text := " 008010 SURFACE QUALIFIER (TEMPERATURE DATA)                             CODE TABLE 008010          0            0   5  ".
Definition b9014 : text := " 008011 METEOROLOGICAL FEATURE                                           CODE TABLE 008011          0            0   6  ".
Definition b9015 : text := " 008012 LAND/SEA QUALIFIER                                               CODE TABLE 008012          0            0   2  ".
Definition b9016 : text := " 008013 DAY/NIGHT QUALIFIER                                              CODE TABLE 008013          0            0   2  ".
Definition b9017 : text := " 008014 QUALIFIER FOR RUNWAY VISUAL RANGE                                CODE TABLE 008014          0            0   4  ".
Definition b9018 : text := " 008016 CHANGE QUALIFIER OF A TREND-TYPE FORECAST OR AN AERODROME FORECA CODE TABLE 008016          0            0   3  ".
Definition b9019 : text := " 008017 QUALIFIER OF THE TIME WHEN THE FORECAST CHANGE IS EXPECTED       CODE TABLE 008017          0            0   2  ".
Definition b9020 : text := " 008018 SEAWINDS LAND/ICE SURFACE TYPE                                   FLAG TABLE 008018          0            0  17  ".
Definition b9021 : text := " 008019 (VAL) QUALIFIER FOR FOLLOWING CENTRE IDENTIFIER                  CODE TABLE 008019          0            0   4  ".
Definition b9022 : text := " 008020 TOTAL NUMBER OF MISSING ENTITIES (WITH RESPECT TO ACCUMULATION O NUMERIC                    0            0  16  ".
Definition b9023 : text := " 008021 TIME SIGNIFICANCE                                                CODE TABLE 008021          0            0   5  ".
Definition b9024 : text := " 008022 TOTAL NUMBER (WITH RESPECT TO ACCUMULATION OR AVERAGE)           NUMERIC                    0            0  16  ".
Definition b9025 : text := " 008023 FIRST ORDER STATISTICS                                           CODE TABLE 008023          0            0   6  ".
Definition b9026 : text := " 008024 DIFFERENCE STATISTICS                                            CODE TABLE 008024          0            0   6  ".
Definition b9027 : text := " 008025 TIME DIFFERENCE QUALIFIER                                        CODE TABLE 008025          0            0   4  ".
Definition b9028 : text := " 008026 (VAL) MATRIX SIGNIFICANCE                                        CODE TABLE 008026          0            0   6  ".
Definition b9029 : text := " 008027 (VAL) MATRIX GEOMETRY                                            CODE TABLE 008027          0            0   6  ".
Definition b9030 : text := " 008030 MANUAL ON CODES (VOLUME I.1, SECTION C) CODE TABLE FROM WHICH DA NUMERIC                    0            0  13  ".
Definition b9031 : text := " 008031 DATA CATEGORY CREX TABLE A                                       NUMERIC                    0            0   8  ".
Definition b9032 : text := " 008033 METHOD OF DERIVATION OF PERCENTAGE CONFIDENCE                    CODE TABLE 008033          0            0   7  ".
Definition b9033 : text := " 008035 TYPE OF MONITORING EXERCISE                                      CODE TABLE 008035          0            0   3  ".
Definition b9034 : text := " 008036 TYPE OF CENTRE OR STATION PERFORMING MONITORING                  CODE TABLE 008036          0            0   3  ".
Definition b9035 : text := " 008040 FLIGHT LEVEL SIGNIFICANCE                                        CODE TABLE 008040          0            0   6  ".
Definition b9036 : text := " 008041 DATA SIGNIFICANCE                                                CODE TABLE 008041          0            0   5  ".
Definition b9037 : text := " 008042 (CBS) EXTENDED VERTICAL SOUNDING SIGNIFICANCE                    FLAG TABLE 008042          0            0  18  ".
Definition b9038 : text := " 008043 (VAL) ATMOSPHERIC CHEMICAL OR PHYSICAL CONSTITUENT TYPE          CODE TABLE 008043          0            0   8  ".
Definition b9039 : text := " 008044 (VAL) CAS REGISTRY NUMBER                                        CCITTIA5                   0            0  88  ".
Definition b9040 : text := " 008045 (VAL) PARTICULATE MATTER CHARACTERIZATION                        CODE TABLE 008045          0            0   8  ".
Definition b9041 : text := " 008049 (CBS) NUMBER OF OBSERVATIONS                                     NUMERIC                    0            0   8  ".
Definition b9042 : text := " 008050 QUALIFIER FOR NUMBER OF MISSING VALUES IN CALCULATION OF STATIST CODE TABLE 008050          0            0   4  ".
Definition b9043 : text := " 008051 QUALIFIER FOR NUMBER OF MISSING VALUES IN CALCULATION OF STATIST CODE TABLE 008051          0            0   3  ".
Definition b9044 : text := " 008052 CONDITION FOR WHICH NUMBER OF DAYS OF OCCURRENCE FOLLOWS         CODE TABLE 008052          0            0   5  ".
Definition b9045 : text := " 008053 DAY OF OCCURRENCE QUALIFIER                                      CODE TABLE 008053          0            0   2  ".
Definition b9046 : text := " 008060 SAMPLE SCANNING MODE SIGNIFICANCE                                CODE TABLE 008060          0            0   4  ".
Definition b9047 : text := " 008065 (CBS) SUN-GLINT INDICATOR                                        CODE TABLE 008065          0            0   2  ".
Definition b9048 : text := " 008066 (CBS) SEMI-TRANSPARENCY INDICATOR                                CODE TABLE 008066          0            0   2  ".
Definition b9049 : text := " 008070 TOVS/ATOVS PRODUCT QUALIFIER                                     CODE TABLE 008070          0            0   4  ".
Definition b9050 : text := " 008072 PIXEL(S) TYPE                                                    CODE TABLE 008072          0            0   3  ".
Definition b9051 : text := " 008074 ALTIMETER ECHO TYPE                                              CODE TABLE 008074          0            0   2  ".
Definition b9052 : text := " 008075 ASCENDING/DESCENDING ORBIT QUALIFIER                             CODE TABLE 008075          0            0   2  ".
Definition b9053 : text := " 008076 TYPE OF BAND                                                     CODE TABLE 008076          0            0   6  ".
Definition b9054 : text := " 008079 (VAL) CHANGE IN STATUS OF FOLLOWING PRODUCT                      CODE TABLE 008079          0            0   3  ".
Definition b9055 : text := " 008081 (CBS) TYPE OF EQUIPMENT                                          CODE TABLE 008081          0            0   6  ".
Definition b9056 : text := " 008082 (CBS) ARTIFICIAL CORRECTION OF SENSOR HEIGHT TO ANOTHER VALUE    CODE TABLE 008082          0            0   3  ".
Definition b9057 : text := " 008083 (VAL) NOMINAL VALUE INDICATOR                                    FLAG TABLE 008083          0            0  15  ".
Definition b9058 : text := " 008090 (VAL) DECIMAL SCALE OF FOLLOWING VALUES                          NUMERIC                    0         -127   8  ".
Definition b9059 : text := " 008193 TIME QUALIFIER                                                   CODE TABLE 008193          0            0   6  ".
Definition b9060 : text := " 008194 TOVS/ATOVS PRODUCT QUALIFIER                                     CODE TABLE 008194          0            0   4  ".
Definition b9061 : text := " 008195 DATA TYPE                                                        CODE TABLE 008195          0            0   7  ".
Definition b9062 : text := " 008200 NUMBER OF OBSERVATIONS                                           NUMERIC                    0            0   8  ".
Definition b9063 : text := " 008222 GENERATOR SIGNIFICANCE                                           CODE TABLE 008222          0            0   4  ".
Definition b9064 : text := " 008223 LAND/ICE SURFACE FLAG                                            FLAG TABLE 008223          0            0   7  ".
Definition b9065 : text := " 008224 LAND/SEA FRACTION                                                NUMERIC                    3            0  10  ".
Definition b9066 : text := " 010001 HEIGHT OF LAND SURFACE                                           M                          0         -400  15  ".
Definition b9067 : text := " 010002 HEIGHT                                                           M                         -1          -40  16  ".
Definition b9068 : text := " 010003 GEOPOTENTIAL                                                     M**2/S**2                 -1         -400  17  ".
Definition b9069 : text := " 010004 PRESSURE                                                         PA                        -1            0  14  ".
Definition b9070 : text := " 010007 HEIGHT                                                           M                          0        -1000  17  ".
Definition b9071 : text := " 010008 GEOPOTENTIAL                                                     M**2/S**2                  0       -10000  20  ".
Definition b9072 : text := " 010009 GEOPOTENTIAL HEIGHT                                              GPM                        0        -1000  17  ".
Definition b9073 : text := " 010010 MINIMUM PRESSURE REDUCED TO MEAN SEA LEVEL                       PA                        -1            0  14  ".
Definition b9074 : text := " 010011 MAXIMUM PRESSURE REDUCED TO MEAN SEA LEVEL                       PA                        -1            0  14  ".
Definition b9075 : text := " 010031 IN DIRECTION OF THE NORTH POLE, DISTANCE FROM THE EARTH'S CENTRE M                          2  -1073741824  31  ".
Definition b9076 : text := " 010032 (CBS) SATELLITE DISTANCE TO EARTH'S CENTRE                       M                          1            0  27  ".
Definition b9077 : text := " 010033 (CBS) ALTITUDE (PLATFORM TO ELLIPSOID)                           M                          1            0  27  ".
Definition b9078 : text := " 010034 (CBS) EARTH RADIUS                                               M                          1            0  27  ".
Definition b9079 : text := " 010035 (CBS) EARTH'S LOCAL RADIUS OF CURVATURE                          M                          1     62000000  22  ".
Definition b9080 : text := " 010036 (CBS) GEOID UNDULATION (SEE NOTE 4)                              M                          2       -15000  15  ".
Definition b9081 : text := " 010040 NUMBER OF RETRIEVED LAYERS                                       NUMERIC                    0            0  10  ".
Definition b9082 : text := " 010050 STANDARD DEVIATION ALTITUDE                                      M                          2            0  16  ".
Definition b9083 : text := " 010051 PRESSURE REDUCED TO MEAN SEA LEVEL                               PA                        -1            0  14  ".
Definition b9084 : text := " 010052 ALTIMETER SETTING (QNH)                                          PA                        -1            0  14  ".
Definition b9085 : text := " 010060 PRESSURE CHANGE                                                  PA                        -1        -1024  11  ".
Definition b9086 : text := " 010061 3-HOUR PRESSURE CHANGE                                           PA                        -1         -500  10  ".
Definition b9087 : text := " 010062 24-HOUR PRESSURE CHANGE                                          PA                        -1        -1000  11  ".
Definition b9088 : text := " 010063 CHARACTERISTIC OF PRESSURE TENDENCY                              CODE TABLE 010063          0            0   4  ".
Definition b9089 : text := " 010064 (VAL) SIGMET CRUISING LEVEL                                      CODE TABLE 010064          0            0   3  ".
Definition b9090 : text := " 010070 INDICATED AIRCRAFT ALTITUDE                                      M                          0         -400  16  ".
Definition b9091 : text := " 010080 (CBS) VIEWING ZENITH ANGLE                                       DEGREE                     2        -9000  15  ".
Definition b9092 : text := " 010081 (CBS) ALTITUDE OF COG ABOVE REFERENCE ELLIPSOID                  M                          3            0  31  ".
Definition b9093 : text := " 010082 (CBS) INSTANTANEOUS ALTITUDE RATE                                MS-1                       3       -65536  17  ".
Definition b9094 : text := " 010083 (CBS) OFF NADIR ANGLE OF THE SATELLITE FROM PLATFORM DATA        DEGREE                     2       -36000  17  ".
Definition b9095 : text := " 010084 (CBS) OFF NADIR ANGLE OF THE SATELLITE FROM WAVEFORM DATA        DEGREE                     2       -36000  17  ".
Definition b9096 : text := " 010085 (CBS) MEAN SEA SURFACE HEIGHT                                    M                          3      -131072  18  ".
Definition b9097 : text := " 010086 (CBS) GEOID'S HEIGHT                                             M                          3      -131072  18  ".
Definition b9098 : text := " 010087 (CBS) OCEAN DEPTH/LAND ELEVATION                                 M                          1      -131072  18  ".
Definition b9099 : text := " 010088 (CBS) TOTAL GEOCENTRIC OCEAN TIDE HEIGHT SOLUTION 1              M                          3       -32768  16  ".
Definition b9100 : text := " 010089 (CBS) TOTAL GEOCENTRIC OCEAN TIDE HEIGHT SOLUTION 2              M                          3       -32768  16  ".
Definition b9101 : text := " 010090 (CBS) LONG PERIOD  TIDE HEIGHT                                   M                          3       -32768  16  ".
Definition b9102 : text := " 010091 (CBS) TIDAL LOADING HEIGHT                                       M                          3       -32768  16  ".
Definition b9103 : text := " 010092 (CBS) SOLID EARTH TIDE HEIGHT                                    M                          3       -32768  16  ".
Definition b9104 : text := " 010093 (CBS) GEOCENTRIC POLE TIDE HEIGHT                                M                          3       -32768  16  ".
Definition b9105 : text := " 011001 WIND DIRECTION                                                   DEGREE TRUE                0            0   9  ".
Definition b9106 : text := " 011002 WIND SPEED                                                       M/S                        1            0  12  ".
Definition b9107 : text := " 011003 U-COMPONENT                                                      M/S                        1        -4096  13  ".
Definition b9108 : text := " 011004 V-COMPONENT                                                      M/S                        1        -4096  13  ".
Definition b9109 : text := " 011005 W-COMPONENT                                                      PA/S                       1         -512  10  ".
Definition b9110 : text := " 011006 W-COMPONENT                                                      M/S                        2        -4096  13  ".
Definition b9111 : text := " 011010 WIND DIRECTION ASSOCIATED WITH WIND SPEED WHICH FOLLOWS          DEGREE TRUE                0            0   9  ".
Definition b9112 : text := " 011011 WIND DIRECTION AT 10 M                                           DEGREE TRUE                0            0   9  ".
Definition b9113 : text := " 011012 WIND SPEED AT 10 M                                               M/S                        1            0  12  ".
Definition b9114 : text := " 011013 WIND DIRECTION AT 5 M                                            DEGREE TRUE                0            0   9  ".
Definition b9115 : text := " 011014 WIND SPEED AT 5 M                                                M/S                        1            0  12  ".
Definition b9116 : text := " 011016 EXTREME COUNTERCLOCKWISE WIND DIRECTION OF A VARIABLE WIND       DEGREE TRUE                0            0   9  ".
Definition b9117 : text := " 011017 EXTREME CLOCKWISE WIND DIRECTION OF A VARIABLE WIND              DEGREE TRUE                0            0   9  ".
Definition b9118 : text := " 011019 STEADINESS OF WIND (6)                                           %                          0            0   7  ".
Definition b9119 : text := " 011021 RELATIVE VORTICITY                                               1/S                        9       -65536  17  ".
Definition b9120 : text := " 011022 DIVERGENCE                                                       1/S                        9       -65536  17  ".
Definition b9121 : text := " 011023 VELOCITY POTENTIAL                                               M**2/S                    -2       -65536  17  ".
Definition b9122 : text := " 011030 (VAL) EXTENDED DEGREE OF TURBULENCE                              CODE TABLE 011030          0            0   6  ".
Definition b9123 : text := " 011031 DEGREE OF TURBULENCE                                             CODE TABLE 011031          0            0   4  ".
Definition b9124 : text := " 011032 HEIGHT OF BASE OF TURBULENCE                                     M                         -1          -40  16  ".
Definition b9125 : text := " 011033 HEIGHT OF TOP OF TURBULENCE                                      M                         -1          -40  16  ".
Definition b9126 : text := " 011034 VERTICAL GUST VELOCITY                                           M/S                        1        -1024  11  ".
Definition b9127 : text := " 011035 VERTICAL GUST ACCELERATION                                       M/S**2                     2        -8192  14  ".
Definition b9128 : text := " 011036 MAXIMUM DERIVED EQUIVALENT VERTICAL GUST SPEED                   M/S                        1            0  10  ".
Definition b9129 : text := " 011037 TURBULENCE INDEX                                                 CODE TABLE 011037          0            0   6  ".
Definition b9130 : text := " 011038 TIME OF OCCURRENCE OF PEAK EDDY DISSIPATION RATE                 CODE TABLE 011038          0            0   5  ".
Definition b9131 : text := " 011039 EXTENDED TIME OF OCCURRENCE OF PEAK  EDDY DISSIPATION RATE       CODE TABLE 011039          0            0   6  ".
Definition b9132 : text := " 011040 MAXIMUM WIND SPEED (MEAN WIND)                                   M/S                        1            0  12  ".
Definition b9133 : text := " 011041 MAXIMUM WIND GUST SPEED                                          M/S                        1            0  12  ".
Definition b9134 : text := " 011042 MAXIMUM WIND SPEED (10-MIN MEAN WIND)                            M/S                        1            0  12  ".
Definition b9135 : text := " 011043 MAXIMUM WIND GUST DIRECTION                                      DEGREE TRUE                0            0   9  ".
Definition b9136 : text := " 011044 MEAN WIND DIRECTION FOR SURFACE - 1500 M (5000 FEET)             DEGREE TRUE                0            0   9  ".
Definition b9137 : text := " 011045 MEAN WIND SPEED FOR SURFACE - 1500 M (5000 FEET)                 M/S                        1            0  12  ".
Definition b9138 : text := " 011046 MAXIMUM INSTANTANEOUS WIND SPEED                                 M/S                        1            0  12  ".
Definition b9139 : text := " 011047 MAXIMUM INSTANTANEOUS WIND SPEED OVER 10 MINUTES                 M/S                        1            0  12  ".
Definition b9140 : text := " 011049 STANDARD DEVIATION OF WIND DIRECTION                             DEGREE TRUE                0            0   9  ".
Definition b9141 : text := " 011050 STANDARD DEVIATION OF HORIZONTAL WIND SPEED                      M/S                        1            0  12  ".
Definition b9142 : text := " 011051 STANDARD DEVIATION OF VERTICAL WIND SPEED                        M/S                        1            0   8  ".
Definition b9143 : text := " 011052 FORMAL UNCERTAINTY IN WIND SPEED                                 M/S                        2            0  13  ".
Definition b9144 : text := " 011053 FORMAL UNCERTAINTY IN WIND DIRECTION                             DEGREE TRUE                2            0  15  ".
Definition b9145 : text := " 011061 ABSOLUTE WIND SHEAR IN 1 KM LAYER BELOW                          M/S                        1            0  12  ".
Definition b9146 : text := " 011062 ABSOLUTE WIND SHEAR IN 1 KM LAYER ABOVE                          M/S                        1            0  12  ".
Definition b9147 : text := " 011070 DESIGNATOR OF THE RUNWAY AFFECTED BY WIND SHEAR (INCLUDING ALL)  CCITTIA5                   0            0  32  ".
Definition b9148 : text := " 011071 TURBULENT VERTICAL MOMENTUM FLUX                                 M**2/S**2                  3         -128  14  ".
Definition b9149 : text := " 011072 TURBULENT VERTICAL BUOYANCY FLUX                                 KM/S                       3         -128  11  ".
Definition b9150 : text := " 011073 TURBULENT KINETIC ENERGY                                         M**2/S**2                  2        -1024  13  ".
Definition b9151 : text := " 011074 DISSIPATION ENERGY                                               M**2/S**2                  2        -1024  10  ".
Definition b9152 : text := " 011075 MEAN TURBULENCE INTENSITY (EDDY DISSIPATION RATE)                M**(2/3)/S                 2            0   8  ".
Definition b9153 : text := " 011076 PEAK TURBULENCE INTENSITY (EDDY DISSIPATION RATE)                M**(2/3)/S                 2            0   8  ".
Definition b9154 : text := " 011077 REPORTING INTERVAL OR AVERAGING TIME FOR EDDY DISSIPATION RATE   S                          0            0  12  ".
Definition b9155 : text := " 011081 MODEL WIND DIRECTION AT 10M                                      DEGREE TRUE                2            0  16  ".
Definition b9156 : text := " 011082 MODEL WIND SPEED AT 10M                                          M/S                        2            0  14  ".
Definition b9157 : text := " 011095 (CBS) U COMPONENT OF THE MODEL WIND VECTOR                       M/S                        1        -4096  13  ".
Definition b9158 : text := " 011096 (CBS) V COMPONENT OF THE MODEL WIND VECTOR                       M/S                        1        -4096  13  ".
Definition b9159 : text := " 011192 U - COMPONENT AT 10 M                                            M/S                        1        -4096  13  ".
Definition b9160 : text := " 011193 V - COMPONENT AT 10 M                                            M/S                        1        -4096  13  ".
Definition b9161 : text := " 011194 W - COMPONENT AT 10 M                                            M/S                        1        -4096  13  ".
Definition b9162 : text := " 011195 STEADINESS OF WIND                                               %                          0            0   7  ".
Definition b9163 : text := " 011230 MAXIMUM MEAN WIND SPEED                                          M/S                        1        -4096  13  ".
Definition b9164 : text := " 011231 MEAN WIND SPEED                                                  M/S                        1        -4096  13  ".
Definition b9165 : text := " 011232 MINIMUM MEAN WIND SPEED                                          M/S                        1        -4096  13  ".
Definition b9166 : text := " 011233 HIGHEST GUST DURING THE 10 MINUTE PERIOD PRECEDING OBSERVATION   M/S                        1        -4096  13  ".
Definition b9167 : text := " 012001 TEMPERATURE/DRY-BULB TEMPERATURE                                 K                          1            0  12  ".
Definition b9168 : text := " 012002 WET-BULB TEMPERATURE                                             K                          1            0  12  ".
Definition b9169 : text := " 012003 DEW-POINT TEMPERATURE                                            K                          1            0  12  ".
Definition b9170 : text := " 012004 DRY-BULB TEMPERATURE AT 2 M                                      K                          1            0  12  ".
Definition b9171 : text := " 012005 WET-BULB TEMPERATURE AT 2 M                                      K                          1            0  12  ".
Definition b9172 : text := " 012006 DEW-POINT TEMPERATURE AT 2 M                                     K                          1            0  12  ".
Definition b9173 : text := " 012007 VIRTUAL TEMPERATURE                                              K                          1            0  12  ".
Definition b9174 : text := " 012011 MAXIMUM TEMPERATURE, AT HEIGHT AND OVER PERIOD SPECIFIED         K                          1            0  12  ".
Definition b9175 : text := " 012012 MINIMUM TEMPERATURE, AT HEIGHT AND OVER PERIOD SPECIFIED         K                          1            0  12  ".
Definition b9176 : text := " 012013 GROUND MINIMUM TEMPERATURE, PAST 12 HOURS                        K                          1            0  12  ".
Definition b9177 : text := " 012014 MAXIMUM TEMPERATURE AT 2 M, PAST 12 HOURS                        K                          1            0  12  ".
Definition b9178 : text := " 012015 MINIMUM TEMPERATURE AT 2 M, PAST 12 HOURS                        K                          1            0  12  ".
Definition b9179 : text := " 012016 MAXIMUM TEMPERATURE AT 2 M, PAST 24 HOURS                        K                          1            0  12  ".
Definition b9180 : text := " 012017 MINIMUM TEMPERATURE AT 2 M, PAST 24 HOURS                        K                          1            0  12  ".
Definition b9181 : text := " 012021 MAXIMUM TEMPERATURE AT 2M                                        K                          2            0  16  ".
Definition b9182 : text := " 012022 MINIMUM TEMPERATURE AT 2M                                        K                          2            0  16  ".
Definition b9183 : text := " 012030 SOIL TEMPERATURE                                                 K                          1            0  12  ".
Definition b9184 : text := " 012049 (VAL) TEMPERATURE CHANGE OVER SPECIFIED PERIOD                   K                          0          -30   6  ".
Definition b9185 : text := " 012051 STANDARD DEVIATION TEMPERATURE                                   K                          1            0  10  ".
Definition b9186 : text := " 012052 HIGHEST DAILY MEAN TEMPERATURE                                   K                          1            0  12  ".
Definition b9187 : text := " 012053 LOWEST DAILY MEAN TEMPERATURE                                    K                          1            0  12  ".
Definition b9188 : text := " 012061 SKIN TEMPERATURE                                                 K                          1            0  12  ".
Definition b9189 : text := " 012062 EQUIVALENT BLACK BODY TEMPERATURE                                K                          1            0  12  ".
Definition b9190 : text := " 012063 BRIGHTNESS TEMPERATURE                                           K                          1            0  12  ".
Definition b9191 : text := " 012064 INSTRUMENT TEMPERATURE                                           K                          1            0  12  ".
Definition b9192 : text := " 012065 STANDARD DEVIATION BRIGHTNESS TEMPERATURE                        K                          1            0  12  ".
Definition b9193 : text := " 012070 WARM LOAD TEMPERATURE                                            K                          2            0  16  ".
Definition b9194 : text := " 012071 COLDEST CLUSTER TEMPERATURE                                      K                          1            0  12  ".
Definition b9195 : text := " 012072 RADIANCE                                                         WM**(-2)SR**(-1)           6            0  31  ".
Definition b9196 : text := " 012073 TEMPERATURE                                                      K                          2            0  16".
Definition b9197 : text := " 012075 SPECTRAL RADIANCE                                                WM**(-3)SR**(-1)          -3            0  16  ".
Definition b9198 : text := " 012076 RADIANCE                                                         WM**(-2)SR**(-1)           3            0  16  ".
Definition b9199 : text := " 012101 TEMPERATURE/DRY-BULB TEMPERATURE                                 K                          2            0  16  ".
Definition b9200 : text := " 012102 WET-BULB TEMPERATURE                                             K                          2            0  16  ".
Definition b9201 : text := " 012103 DEW-POINT TEMPERATURE                                            K                          2            0  16  ".
Definition b9202 : text := " 012104 DRY-BULB TEMPERATURE AT 2M                                       K                          2            0  16  ".
Definition b9203 : text := " 012105 WEB-BULB TEMPERATURE AT 2M                                       K                          2            0  16  ".
Definition b9204 : text := " 012106 DEW-POINT TEMPERATURE AT 2M                                      K                          2            0  16  ".
Definition b9205 : text := " 012107 VIRTUAL TEMPERATURE                                              K                          2            0  16  ".
Definition b9206 : text := " 012111 MAXIMUM TEMPERATURE, AT HEIGHT AND OVER PERIOD SPECIFIED         K                          2            0  16  ".
Definition b9207 : text := " 012112 MINIMUM TEMPERATURE, AT HEIGHT AND OVER PERIOD SPECIFIED         K                          2            0  16  ".
Definition b9208 : text := " 012113 GROUND MINIMUM TEMPERATURE, PAST 12 HOURS                        K                          2            0  16  ".
Definition b9209 : text := " 012114 MAXIMUM TEMPERATURE AT 2M, PAST 12 HOURS                         K                          2            0  16  ".
Definition b9210 : text := " 012115 MINIMUM TEMPERATURE AT 2M, PAST 12 HOURS                         K                          2            0  16  ".
Definition b9211 : text := " 012116 MAXIMUM TEMPERATURE AT 2M, PAST 24 HOURS                         K                          2            0  16  ".
Definition b9212 : text := " 012117 MINIMUM TEMPERATURE AT 2M, PAST 24 HOURS                         K                          2            0  16  ".
Definition b9213 : text := " 012118 MAXIMUM TEMPERATURE AT HEIGHT SPECIFIED, PAST 24 HOURS           K                          2            0  16  ".
Definition b9214 : text := " 012119 MINIMUM  TEMPERATURE AT HEIGHT SPECIFIED, PAST 24 HOURS          K                          2            0  16  ".
Definition b9215 : text := " 012130 SOIL TEMPERATURE                                                 K                          2            0  16  ".
Definition b9216 : text := " 012151 STANDARD DEVIATION OF DAILY MEAN TEMPERATURE                     K                          2            0  12  ".
Definition b9217 : text := " 012152 HIGHEST DAILY MEAN TEMPERATURE                                   K                          2            0  16  ".
Definition b9218 : text := " 012153 LOWEST DAILY MEAN TEMPERATURE                                    K                          2            0  16  ".
Definition b9219 : text := " 012161 SKIN TEMPERATURE                                                 K                          2            0  16  ".
Definition b9220 : text := " 012162 EQUIVALENT BLACK BODY TEMPERATURE                                K                          2            0  16  ".
Definition b9221 : text := " 012163 BRIGHTNESS TEMPERATURE                                           K                          2            0  16  ".
Definition b9222 : text := " 012164 INSTRUMENT TEMPERATURE                                           K                          2            0  16  ".
Definition b9223 : text := " 012171 COLDEST CLUSTER TEMPERATURE                                      K                          2            0  16  ".
Definition b9224 : text := " 012180 (CBS) AVERAGED 12 MICRON BT FOR ALL CLEAR PIXELS AT NADIR        K                          2            0  16  ".
Definition b9225 : text := " 012181 (CBS) AVERAGED 11 MICRON BT FOR ALL CLEAR PIXELS AT NADIR        K                          2            0  16  ".
Definition b9226 : text := " 012182 (CBS) AVERAGED 3.7 MICRON BT FOR ALL CLEAR PIXELS AT NADIR       K                          2            0  16  ".
Definition b9227 : text := " 012183 (CBS) AVERAGED 12 MICRON BT FOR ALL CLEAR PIXELS, FORWARD VIEW   K                          2            0  16  ".
Definition b9228 : text := " 012184 (CBS) AVERAGED 11 MICRON BT FOR ALL CLEAR PIXELS, FORWARD VIEW   K                          2            0  16  ".
Definition b9229 : text := " 012185 (CBS) AVERAGED 3.7 MICRON BT FOR ALL CLEAR PIXELS, FORWARD VIEW  K                          2            0  16  ".
Definition b9230 : text := " 012186 (CBS) MEAN NADIR SEA SURFACE TEMPERATURE                         K                          2            0  16  ".
Definition b9231 : text := " 012187 (CBS) MEAN DUAL VIEW SEA SURFACE TEMPERATURE                     K                          2            0  16  ".
Definition b9232 : text := " 012188 (CBS) INTERPOLATED 23.8 GHZ BRIGHTNESS T FROM MWR                K                          2            0  16  ".
Definition b9233 : text := " 012189 (CBS) INTERPOLATED 36.5 GHZ BRIGHTNESS T FROM MWR                K                          2            0  16  ".
Definition b9234 : text := " 013001 SPECIFIC HUMIDITY                                                KG/KG                      5            0  14  ".
Definition b9235 : text := " 013002 MIXING RATIO                                                     KG/KG                      5            0  14  ".
Definition b9236 : text := " 013003 RELATIVE HUMIDITY                                                %                          0            0   7  ".
Definition b9237 : text := " 013004 VAPOUR PRESSURE                                                  PA                        -1            0  10  ".
Definition b9238 : text := " 013005 VAPOUR DENSITY                                                   KG/M**3                    3            0   7  ".
Definition b9239 : text := " 013006 MIXING HEIGHTS                                                   M                         -1          -40  16  ".
Definition b9240 : text := " 013007 MINIMUM RELATIVE HUMIDITY                                        %                          0            0   7  ".
Definition b9241 : text := " 013008 MAXIMUM RELATIVE HUMIDITY                                        %                          0            0   7  ".
Definition b9242 : text := " 013009 RELATIVE HUMIDITY                                                %                          1        -1000  12  ".
Definition b9243 : text := " 013011 TOTAL PRECIPITATION/TOTAL WATER EQUIVALENT                       KG/M**2                    1           -1  14  ".
Definition b9244 : text := " 013012 DEPTH OF FRESH SNOW                                              M                          2           -2  12  ".
Definition b9245 : text := " 013013 TOTAL SNOW DEPTH                                                 M                          2           -2  16  ".
Definition b9246 : text := " 013014 RAINFALL/WATER EQUIVALENT OF SNOW (AVERAGED RATE)                KG/(M**2)S                 4            0  12  ".
Definition b9247 : text := " 013015 SNOWFALL  (AVERAGED RATE)                                        M/S                        7            0  12  ".
Definition b9248 : text := " 013016 PRECIPITABLE WATER                                               KG/M**2                    0            0   7  ".
Definition b9249 : text := " 013019 TOTAL PRECIPITATION PAST 1 HOUR                                  KG/M**2                    1           -1  14  ".
Definition b9250 : text := " 013020 TOTAL PRECIPITATION PAST 3 HOURS                                 KG/M**2                    1           -1  14  ".
Definition b9251 : text := " 013021 TOTAL PRECIPITATION PAST 6 HOURS                                 KG/M**2                    1           -1  14  ".
Definition b9252 : text := " 013022 TOTAL PRECIPITATION PAST 12 HOURS                                KG/M**2                    1           -1  14  ".
Definition b9253 : text := " 013023 TOTAL PRECIPITATION PAST 24 HOURS                                KG/M**2                    1           -1  14  ".
Definition b9254 : text := " 013031 EVAPOTRANSPIRATION                                               KG/M**2                    0            0   7  ".
Definition b9255 : text := " 013032 EVAPORATION/EVAPOTRANSPIRATION                                   KG/M**2                    1            0   8  ".
Definition b9256 : text := " 013033 EVAPORATION/EVAPOTRANSPIRATION                                   KG/M**2                    1            0  10  ".
Definition b9257 : text := " 013038 SUPERADIABATIC INDICATOR                                         CODE TABLE 013038          0            0   2  ".
Definition b9258 : text := " 013039 TERRAIN TYPE (ICE/SNOW)                                          CODE TABLE 013039          0            0   3  ".
Definition b9259 : text := " 013040 SURFACE FLAG                                                     CODE TABLE 013040          0            0   4  ".
Definition b9260 : text := " 013041 PASQUILL-GIFFORD STABILITY CATEGORY                              CODE TABLE 013041          0            0   4  ".
Definition b9261 : text := " 013042 PARCEL LIFTED INDEX (TO 500 HPA)                                 K                          0          -20   6  ".
Definition b9262 : text := " 013043 BEST LIFTED INDEX (TO 500 HPA)                                   K                          0          -20   6  ".
Definition b9263 : text := " 013044 (CBS) K INDEX                                                    K                          0          -30   8  ".
Definition b9264 : text := " 013045 (CBS) KO INDEX                                                   K                          0          -30   8  ".
Definition b9265 : text := " 013046 (CBS) MAXIMUM BUOYANCY                                           K                          0          -30   8  ".
Definition b9266 : text := " 013051 FREQUENCY GROUP, PRECIPITATION                                   CODE TABLE 013051          0            0   4  ".
Definition b9267 : text := " 013052 HIGHEST DAILY AMOUNT OF PRECIPITATION                            KG/M**2                    1           -1  14  ".
Definition b9268 : text := " 013055 INTENSITY OF PRECIPITATION                                       KG/(M**2)S                 4            0   8  ".
Definition b9269 : text := " 013058 SIZE OF PRECIPITATING ELEMENT                                    M                          4            0   7  ".
Definition b9270 : text := " 013059 NUMBER OF FLASHES (THUNDERSTORM)                                 NUMERIC                    0            0   7  ".
Definition b9271 : text := " 013060 TOTAL ACCUMULATED PRECIPITATION                                  KG/M**2                    1           -1  17  ".
Definition b9272 : text := " 013071 UPSTREAM WATER LEVEL                                             M                          2            0  14  ".
Definition b9273 : text := " 013072 DOWNSTREAM WATER LEVEL                                           M                          2            0  14  ".
Definition b9274 : text := " 013073 MAXIMUM WATER LEVEL                                              M                          2            0  14  ".
Definition b9275 : text := " 013080 WATER PH                                                         pH                         1            0  10  ".
Definition b9276 : text := " 013081 WATER CONDUCTIVITY                                               SIEMENS/M                  3            0  14  ".
Definition b9277 : text := " 013082 WATER TEMPERATURE                                                K                          1            0  12  ".
Definition b9278 : text := " 013083 DISSOLVED OXYGEN                                                 KG/M**3                    6            0  15  ".
Definition b9279 : text := " 013084 TURBIDITY                                                        LUMEN                      0            0  14  ".
Definition b9280 : text := " 013085 OXYDATION REDUCTION POTENTIAL (ORP)                              V                          3            0  14  ".
Definition b9281 : text := " 013090 RADIOMETER WATER VAPOUR CONTENT                                  KGM-2                      1            0  10  ".
Definition b9282 : text := " 013091 RADIOMETER LIQUID CONTENT                                        KGM-2                      2            0   8  ".
Definition b9283 : text := " 013093 (CBS) CLOUD OPTICAL THICKNESS                                    NUMERIC                    0            0   8  ".
Definition b9284 : text := " 013095 (CBS) TOTAL COLUMN WATER VAPOUR                                  KGM-2                      4            0  19  ".
Definition b9285 : text := " 013096 (CBS) MWR WATER VAPOUR CONTENT                                   KGM-2                      2            0  14  ".
Definition b9286 : text := " 013097 (CBS) MWR LIQUID WATER CONTENT                                   KGM-2                      2            0  14  ".
Definition b9287 : text := " 013098 (CBS) INTEGRATED WATER VAPOUR DENSITY                            KGM-2                      8            0  30  ".
Definition b9288 : text := " 013192 RELATIVE HUMIDITY AT 2 M                                         %                          0            0   8  ".
Definition b9289 : text := " 013198 RAIN FLAG                                                        CODE TABLE 013198          0            0   3  ".
Definition b9290 : text := " 013202 TYPE OF SURFACE                                                  CODE TABLE 013202          0            0   8  ".
Definition b9291 : text := " 014001 LONG-WAVE RADIATION, INTEGRATED OVER 24 HOURS                    J/M**2                    -3        -2048  12  ".
Definition b9292 : text := " 014002 LONG-WAVE RADIATION, INTEGRATED OVER PERIOD SPECIFIED            J/M**2                    -3        -2048  12  ".
Definition b9293 : text := " 014003 SHORT-WAVE RADIATION, INTEGRATED OVER 24 HOURS                   J/M**2                    -3        -2048  12  ".
Definition b9294 : text := " 014004 SHORT-WAVE RADIATION, INTEGRATED OVER PERIOD SPECIFIED           J/M**2                    -3        -2048  12  ".
Definition b9295 : text := " 014011 NET LONG-WAVE RADIATION, INTEGRATED OVER 24 HOURS                J/M**2                    -3        -2048  12  ".
Definition b9296 : text := " 014012 NET LONG-WAVE RADIATION, INTEGRATED OVER PERIOD SPECIFIED        J/M**2                    -3        -2048  12  ".
Definition b9297 : text := " 014013 NET SHORT-WAVE RADIATION, INTEGRATED OVER 24 HOURS               J/M**2                    -3        -2048  12  ".
Definition b9298 : text := " 014014 NET SHORT-WAVE RADIATION, INTEGRATED OVER PERIOD SPECIFIED       J/M**2                    -3        -2048  12  ".
Definition b9299 : text := " 014015 NET RADIATION, INTEGRATED OVER 24 HOURS                          J/M**2                    -4       -16384  15  ".
Definition b9300 : text := " 014016 NET RADIATION, INTEGRATED OVER PERIOD SPECIFIED                  J/M**2                    -4       -16384  15  ".
Definition b9301 : text := " 014017 INSTANTANEOUS LONG-WAVE RADIATION (SEE NOTE 6)                   W/M**2                    -3        -2048  12  ".
Definition b9302 : text := " 014018 INSTANTANEOUS SHORT-WAVE RADIATION (SEE NOTE 6)                  W/M**2                    -3        -2048  12  ".
Definition b9303 : text := " 014019 SURFACE ALBEDO                                                   %                          0            0   7  ".
Definition b9304 : text := " 014020 GLOBAL SOLAR RADIATION, INTEGRATED OVER 24 HOURS                 J/M**2                    -4            0  15  ".
Definition b9305 : text := " 014021 GLOBAL SOLAR RADIATION, INTEGRATED OVER PERIOD SPECIFIED         J/M**2                    -4            0  15  ".
Definition b9306 : text := " 014022 DIFFUSE SOLAR RADIATION, INTEGRATED OVER 24 HOURS                J/M**2                    -4            0  15  ".
Definition b9307 : text := " 014023 DIFFUSE SOLAR RADIATION, INTEGRATED OVER PERIOD SPECIFIED        J/M**2                    -4            0  15  ".
Definition b9308 : text := " 014024 DIRECT SOLAR RADIATION, INTEGRATED OVER 24 HOURS                 J/M**2                    -4            0  15  ".
Definition b9309 : text := " 014025 DIRECT SOLAR RADIATION, INTEGRATED OVER PERIOD SPECIFIED         J/M**2                    -4            0  15  ".
Definition b9310 : text := " 014026 ALBEDO AT THE TOP OF CLOUDS                                      %                          0            0   7  ".
Definition b9311 : text := " 014027 ALBEDO                                                           %                          0            0   7  ".
Definition b9312 : text := " 014028 GLOBAL SOLAR RADIATION (HIGH ACCURACY), INTEGRATED OVER PERIOD S J/M**2                    -2            0  16  ".
Definition b9313 : text := " 014029 DIFFUSE SOLAR RADIATION (HIGH ACCURACY), INTEGRATED OVER PERIOD  J/M**2                    -2            0  16  ".
Definition b9314 : text := " 014030 DIRECT SOLAR RADIATION (HIGH ACCURACY), INTEGRATED OVER PERIOD S J/M**2                    -2            0  16  ".
Definition b9315 : text := " 014031 TOTAL SUNSHINE                                                   MINUTE                     0            0  11  ".
Definition b9316 : text := " 014032 TOTAL SUNSHINE                                                   HOUR                       0            0  10  ".
Definition b9317 : text := " 014033 TOTAL SUNSHINE                                                   %                          0            0   9  ".
Definition b9318 : text := " 014034 SUNSHINE OVER PERIOD SPECIFIED                                   MINUTE                     0            0  11  ".
Definition b9319 : text := " 014042 BI-DIRECTIONAL REFLECTANCE                                       %                          0            0   7  ".
Definition b9320 : text := " 014045 CHANNEL RADIANCE                                                 (W/M**2)*(1/SR)*CM         0            0  11  ".
Definition b9321 : text := " 014050 EMISSIVITY (SEE NOTE 5)                                          %                          1            0  10  ".
Definition b9322 : text := " 014051 DIRECT SOLAR RADIATION INTEGRATED OVER LAST HOUR                 J/M**2                    -3            0  14  ".
Definition b9323 : text := " 014055 (CBS) SOLAR ACTIVITY INDEX                                       NUMERIC                    0       -32768  16  ".
Definition b9324 : text := " 014061 (VAL) INSTANTANEOUS LONG-WAVE RADIATION                          W/M**2                     0         -512  10  ".
Definition b9325 : text := " 014062 (VAL) INSTANTANEOUS SHORT-WAVE RADIATION                         W/M**2                     0        -2048  12  ".
Definition b9326 : text := " 015001 TOTAL OZONE                                                      DU                         0            0  10  ".
Definition b9327 : text := " 015002 AIR MASS (SLANT PATH AT 22 KM)                                   NUMERIC                    2            0  10  ".
Definition b9328 : text := " 015003 MEASURED OZONE PARTIAL PRESSURE (SOUNDING)                       PA                         4            0   9  ".
Definition b9329 : text := " 015004 OZONE SOUNDING CORRECTION FACTOR                                 NUMERIC                    3            0  11  ".
Definition b9330 : text := " 015005 OZONE P                                                          DU                         0            0  10  ".
Definition b9331 : text := " 015007 (VAL) MOLECULAR MASS                                             U                          2            0  15  ".
Definition b9332 : text := " 015008 (VAL) SCALED VOLUMETRIC MIXING RATIO                             NUMERIC                    0            0  24  ".
Definition b9333 : text := " 015009 (VAL) SCALED INTEGRATED NUMBER DENSITY                           1/M**2                     0            0  24  ".
Definition b9334 : text := " 015010 (VAL) SCALED PARTIAL PRESSURE                                    PA                         0            0  24  ".
Definition b9335 : text := " 015011 LOG 10 OF INTEGRATED ELECTRON DENSITY                            LOG (1/M2)                 3        14000  13  ".
Definition b9336 : text := " 015015 MAXIMUM IMAGE SPECTRAL COMPONENT BEFORE NORMALIZATION            NUMERIC                    0            0  31  ".
Definition b9337 : text := " 015020 INTEGRATED 03 DENSITY                                            KG/M**2                    8            0  21  ".
Definition b9338 : text := " 015021 (VAL) SCALED INTEGRATED MASS DENSITY                             KG/M**2                    0            0  24  ".
Definition b9339 : text := " 015022 (VAL) SCALED NUMBER DENSITY                                      1/M**3                     0            0  24  ".
Definition b9340 : text := " 015023 (VAL) SCALED MASS DENSITY                                        KG/M**3                    0            0  24  ".
Definition b9341 : text := " 015024 (VAL) OPTICAL DEPTH                                              NUMERIC                    4            0  24  ".
Definition b9342 : text := " 015025 (CBS) TYPE OF POLLUTANT                                          CODE TABLE 015025          0            0   4  ".
Definition b9343 : text := " 015026 (CBS) CONCENTRATION OF POLLUTANT                                 MOLMOL-1                   9            0   9  ".
Definition b9344 : text := " 015028 (VAL) SCALED PHOTO DISSOCIATION RATE                             1/S                        0            0  24  ".
Definition b9345 : text := " 015029 (VAL) SCALED EXTINCTION COEFFICIENT                              1/M                        0            0  24  ".
Definition b9346 : text := " 015031 ATMOSPHERIC PATH DELAY IN SATELLITE SIGNAL                       M                          4        10000  15  ".
Definition b9347 : text := " 015032 ESTIMATED ERROR IN ATMOSPHERIC PATH DELAY                        M                          4            0  10  ".
Definition b9348 : text := " 015033 DIFFERENCE IN PATH DELAYS FOR LIMB VIEWS AT EXTREMES OF SCAN     M                          5       -10000  15  ".
Definition b9349 : text := " 015034 ESTIMATED ERROR IN PATH DELAY DIFFERENCE                         M                          5            0  14  ".
Definition b9350 : text := " 015035 COMPONENT OF ZENITH PATH DELAY DUE TO WATER VAPOUR               M                          4            0  14  ".
Definition b9351 : text := " 015036 (CBS) ATMOSPHERIC REFRACTIVITY (SEE NOTE 5)                      N-UNITS                    3            0  19  ".
Definition b9352 : text := " 015037 (CBS) BENDING ANGLE                                              RADIANS                    8      -100000  23  ".
Definition b9353 : text := " 015041 (VAL) RATIO OF SMALL MODE AEROSOL OPTICAL DEPTH                  NUMERIC                    6            0  20  ".
Definition b9354 : text := " 015042 (VAL) REFLECTANCE                                                NUMERIC                    6            0  20  ".
Definition b9355 : text := " 015043 (VAL) NUMBER OF AVERAGING KERNEL LAYERS                          NUMERIC                    0            0  10  ".
Definition b9356 : text := " 015044 (VAL) AVERAGING KERNEL VALUE                                     NUMERIC                    6     -5000000  24  ".
Definition b9357 : text := " 019001 TYPE OF SYNOPTIC FEATURE                                         CODE TABLE 019001          0            0   6  ".
Definition b9358 : text := " 019002 EFFECTIVE RADIUS OF FEATURE                                      M                         -2            0  12  ".
Definition b9359 : text := " 019003 WIND SPEED THRESHOLD                                             M/S                        0            0   8  ".
Definition b9360 : text := " 019004 EFFECTIVE RADIUS WITH RESPECT TO WIND SPEEDS ABOVE THRESHOLD     M                         -2            0  12  ".
Definition b9361 : text := " 019005 DIRECTION OF MOTION OF FEATURE                                   DEGREE TRUE                0            0   9  ".
Definition b9362 : text := " 019006 SPEED OF MOTION OF FEATURE                                       M/S                        2            0  14  ".
Definition b9363 : text := " 019007 EFFECTIVE RADIUS OF FEATURE                                      M                         -3            0  12  ".
Definition b9364 : text := " 019008 VERTICAL EXTENT OF CIRCULATION                                   CODE TABLE 019008          0            0   3  ".
Definition b9365 : text := " 019009 EFFECTIVE RADIUS WITH RESPECT TO WIND SPEEDS ABOVE THRESHOLD (LA M                         -3            0  12  ".
Definition b9366 : text := " 019010 METHOD FOR TRACKING THE CENTRE OF SYNOPTIC FEATURE               CODE TABLE 019010          0            0   4  ".
Definition b9367 : text := " 019106 IDENTIFICATION NUMBER OF TROPICAL CYCLONE                        NUMERIC                    0            0   7  ".
Definition b9368 : text := " 019107 TIME INTERVAL OF THE TROPICAL CYCLONE ANALYSIS                   CODE TABLE 019107          0            0   4  ".
Definition b9369 : text := " 019108 ACCURACY OF GEOGRAPHICAL POSITION OF THE TROPICAL CYCLONE        CODE TABLE 019108          0            0   3  ".
Definition b9370 : text := " 019109 MEAN DIAMETER OF THE OVERCAST CLOUD OF THE TROPICAL CYCLONE      CODE TABLE 019109          0            0   4  ".
Definition b9371 : text := " 019110 APPARENT 24-HOUR CHANGE IN INTENSITY OF TROPICAL CYCLONE         CODE TABLE 019110          0            0   4  ".
Definition b9372 : text := " 019111 CURRENT INTENSITY (CI) NUMBER OF THE TROPICAL CYCLONE            NUMERIC                    1            0   7  ".
Definition b9373 : text := " 019112 DATA TROPICAL (DT) NUMBER OF TROPICAL CYCLONES                   NUMERIC                    1            0   7  ".
Definition b9374 : text := " 019113 CLOUD PATTERN TYPE OF DT-NUMBER                                  CODE TABLE 019113          0            0   4  ".
Definition b9375 : text := " 019114 MODEL EXPECTED TROPICAL CYCLONE (MET) number of THE TROPICAL CYC NUMERIC                    1            0   7  ".
Definition b9376 : text := " 019115 TREND OF PAST 24-HOUR CHANGE (+: DEVELOPED,-:WEAKENED)           NUMERIC                    1          -30   6  ".
Definition b9377 : text := " 019116 PATTERN PROPICAL (PT) NUMBER OF THE TROPICAL CYCLONE             NUMERIC                    1            0   7  ".
Definition b9378 : text := " 019117 CLOUDE PICTURE TYPE OF THE PT-NUMBER                             CODE TABLE 019117          0            0   3  ".
Definition b9379 : text := " 019118 FINAL TROPICAL (T) NUMBER OF THE TROPICAL CYCLONE                NUMERIC                    1            0   7  ".
Definition b9380 : text := " 019119 TYPE OF THE FINAL T-NUMBER                                       CODE TABLE 019119          0            0   3  ".
Definition b9381 : text := " 019150 TYPHOON INTERNATIONAL COMMON NUMBER (TYPHOON COMMITTEE)          CCITTIA5                   0            0  32  ".
Definition b9382 : text := " 020001 HORIZONTAL VISIBILITY                                            M                         -1            0  13  ".
Definition b9383 : text := " 020002 VERTICAL VISIBILITY                                              M                         -1            0   7  ".
Definition b9384 : text := " 020003 PRESENT WEATHER (SEE NOTE 1)                                     CODE TABLE 020003          0            0   9  ".
Definition b9385 : text := " 020004 PAST WEATHER (1) (SEE NOTE 2)                                    CODE TABLE 020004          0            0   5  ".
Definition b9386 : text := " 020005 PAST WEATHER (2) (SEE NOTE 2)                                    CODE TABLE 020005          0            0   5  ".
Definition b9387 : text := " 020008 CLOUD DISTRIBUTION FOR AVIATION                                  CODE TABLE 020008          0            0   5  ".
Definition b9388 : text := " 020009 GENERAL WEATHER INDICATOR (TAF/METAR)                            CODE TABLE 020009          0            0   4  ".
Definition b9389 : text := " 020010 CLOUD COVER (TOTAL)                                              %                          0            0   7  ".
Definition b9390 : text := " 020011 CLOUD AMOUNT                                                     CODE TABLE 020011          0            0   4  ".
Definition b9391 : text := " 020012 CLOUD TYPE                                                       CODE TABLE 020012          0            0   6  ".
Definition b9392 : text := " 020013 HEIGHT OF BASE OF CLOUD                                          M                         -1          -40  11  ".
Definition b9393 : text := " 020014 HEIGHT OF TOP OF CLOUD                                           M                         -1          -40  11  ".
Definition b9394 : text := " 020015 PRESSURE AT BASE OF CLOUD                                        PA                        -1            0  14  ".
Definition b9395 : text := " 020016 PRESSURE AT TOP OF CLOUD                                         PA                        -1            0  14  ".
Definition b9396 : text := " 020017 CLOUD TOP DESCRIPTION                                            CODE TABLE 020017          0            0   4  ".
Definition b9397 : text := " 020018 TENDENCY OF RUNWAY VISUAL RANGE                                  CODE TABLE 020018          0            0   2  ".
Definition b9398 : text := " 020019 SIGNIFICANT PRESENT OR FORECAST WEATHER                          CCITTIA5                   0            0  72  ".
Definition b9399 : text := " 020020 SIGNIFICANT RECENT WEATHER PHENOMENA                             CCITTIA5                   0            0  32  ".
Definition b9400 : text := " 020021 TYPE OF PRECIPITATION                                            FLAG TABLE 020021          0            0  30  ".
Definition b9401 : text := " 020022 CHARACTER OF PRECIPITATION                                       CODE TABLE 020022          0            0   4  ".
Definition b9402 : text := " 020023 OTHER WEATHER PHENOMENA                                          FLAG TABLE 020023          0            0  18  ".
Definition b9403 : text := " 020024 INTENSITY OF PHENOMENA                                           CODE TABLE 020024          0            0   3  ".
Definition b9404 : text := " 020025 OBSCURATION                                                      FLAG TABLE 020025          0            0  21  ".
Definition b9405 : text := " 020026 CHARACTER OF OBSCURATION                                         CODE TABLE 020026          0            0   4  ".
Definition b9406 : text := " 020027 PHENOMENA OCCURRENCE                                             FLAG TABLE 020027          0            0   9  ".
Definition b9407 : text := " 020028 (VAL) EXPECTED CHANGE IN INTENSITY                               CODE TABLE 020028          0            0   3  ".
Definition b9408 : text := " 020029 RAIN FLAG                                                        CODE TABLE 020029          0            0   2  ".
Definition b9409 : text := " 020031 ICE DEPOSIT (THICKNESS)                                          M                          2            0   7  ".
Definition b9410 : text := " 020032 RATE OF ICE ACCRETION                                            CODE TABLE 020032          0            0   3  ".
Definition b9411 : text := " 020033 CAUSE OF ICE ACCRETION                                           FLAG TABLE 020033          0            0   4  ".
Definition b9412 : text := " 020034 SEA ICE CONCENTRATION                                            CODE TABLE 020034          0            0   5  ".
Definition b9413 : text := " 020035 AMOUNT AND TYPE OF ICE                                           CODE TABLE 020035          0            0   4  ".
Definition b9414 : text := " 020036 ICE SITUATION                                                    CODE TABLE 020036          0            0   5  ".
Definition b9415 : text := " 020037 ICE DEVELOPMENT                                                  CODE TABLE 020037          0            0   5  ".
Definition b9416 : text := " 020038 BEARING OF ICE EDGE (SEE NOTE 3)                                 DEGREE TRUE                0            0  12  ".
Definition b9417 : text := " 020039 ICE DISTANCE                                                     M                         -1            0  13  ".
Definition b9418 : text := " 020041 AIRFRAME ICING                                                   CODE TABLE 020041          0            0   4  ".
Definition b9419 : text := " 020042 AIRFRAME ICING PRESENT                                           CODE TABLE 020042          0            0   2  ".
Definition b9420 : text := " 020043 PEAK LIQUID WATER CONTENT                                        KG/M**3                    4            0   7  ".
Definition b9421 : text := " 020044 AVERAGE LIQUID WATER CONTENT                                     KG/M**3                    4            0   7  ".
Definition b9422 : text := " 020045 SUPERCOOLED LARGE DROPLET (SLD) CONDITIONS                       CODE TABLE 020045          0            0   2  ".
Definition b9423 : text := " 020050 (CBS) CLOUD INDEX                                                CODE TABLE 020050          0            0   8  ".
Definition b9424 : text := " 020051 AMOUNT OF LOW CLOUDS                                             %                          0            0   7  ".
Definition b9425 : text := " 020052 AMOUNT OF MIDDLE CLOUDS                                          %                          0            0   7  ".
Definition b9426 : text := " 020053 AMOUNT OF HIGH CLOUDS                                            %                          0            0   7  ".
Definition b9427 : text := " 020054 (VAL) TRUE DIRECTION FROM WHICH CLOUDS ARE MOVING                DEGREE TRUE                0            0   9  ".
Definition b9428 : text := " 020056 (CBS) CLOUD PHASE                                                CODE TABLE 020056          0            0   3  ".
Definition b9429 : text := " 020061 RUNWAY VISUAL RANGE (RVR)                                        M                          0            0  12  ".
Definition b9430 : text := " 020062 STATE OF THE GROUND (WITH OR WITHOUT SNOW)                       CODE TABLE 020062          0            0   5  ".
Definition b9431 : text := " 020063 SPECIAL PHENOMENA                                                CODE TABLE 020063          0            0  10  ".
Definition b9432 : text := " 020065 SNOW COVER (SEE NOTE 4)                                          %                          0            0   7  ".
Definition b9433 : text := " 020070 MINIMUM NUMBER OF ATMOSPHERICS                                   NUMERIC                    0            0   7  ".
Definition b9434 : text := " 020071 ACCURACY OF FIX AND RATE OF ATMOSPHERICS                         CODE TABLE 020071          0            0   4  ".
Definition b9435 : text := " 020079 (VAL) SNOW/ICE CRYSTALS INDICATOR                                FLAG TABLE 020079          0            0   2  ".
Definition b9436 : text := " 020080 (VAL) CLOUD AMOUNT PERCENTAGE INTERVAL                           CODE TABLE 020080          0            0   3  ".
Definition b9437 : text := " 020081 CLOUD AMOUNT IN SEGMENT                                          %                          0            0   7  ".
Definition b9438 : text := " 020082 AMOUNT SEGMENT CLOUD FREE                                        %                          0            0   7  ".
Definition b9439 : text := " 020083 (CBS) AMOUNT OF SEGMENT COVERED BY SCENE                         %                          0            0   7  ".
Definition b9440 : text := " 020090 SPECIAL CLOUDS                                                   CODE TABLE 020090          0            0   4  ".
Definition b9441 : text := " 020192 SPECIAL PHENOMENA                                                CODE TABLE 020192          0            0  14  ".
Definition b9442 : text := " 020193 CLOUD AMOUNT IN SEGMENT                                          %                          0            0   7  ".
Definition b9443 : text := " 020194 AMOUNT OF SEGMENT CLOUD FREE                                     %                          0            0   7  ".
Definition b9444 : text := " 020215 PRESSURE AT THE BASE OF CLOUD                                    PA                        -1            0  14  ".
Definition b9445 : text := " 020250 CALCULATED SURFACE TYPE                                          CODE TABLE 020250          0            0   5  ".
Definition b9446 : text := " 020251 ICE AGE                                                          CODE TABLE 020251          0            0   3  ".
Definition b9447 : text := " 020252 ICE EDGE                                                         CODE TABLE 020252          0            0   3  ".
Definition b9448 : text := " 020253 SURFACE TYPE                                                     CODE TABLE 020253          0            0   3  ".
Definition b9449 : text := " 021001 HORIZONTAL REFLECTIVITY                                          dB                         0          -64   7  ".
Definition b9450 : text := " 021002 VERTICAL REFLECTIVITY                                            dB                         0          -64   7  ".
Definition b9451 : text := " 021003 DIFFERENTIAL REFLECTIVITY                                        dB                         1           -5   7  ".
Definition b9452 : text := " 021005 LINEAR DEPOLARISATION RATIO                                      dB                         0          -65   6  ".
Definition b9453 : text := " 021006 CIRCULAR DEPOLARISATION RATIO                                    dB                         0          -65   6  ".
Definition b9454 : text := " 021011 DOPPLER MEAN VELOCITY IN X-DIRECTION                             M/S                        0         -128   8  ".
Definition b9455 : text := " 021012 DOPPLER MEAN VELOCITY IN Y-DIRECTION                             M/S                        0         -128   8  ".
Definition b9456 : text := " 021013 DOPPLER MEAN VELOCITY IN Z-DIRECTION                             M/S                        0         -128   8  ".
Definition b9457 : text := " 021014 DOPPLER MEAN VELOCITY (RADIAL)                                   M/S                        1        -4096  13  ".
Definition b9458 : text := " 021017 DOPPLER VELOCITY SPECTRAL WIDTH                                  M/S                        1            0   8  ".
Definition b9459 : text := " 021021 ECHO TOPS                                                        M                         -3            0   4  ".
Definition b9460 : text := " 021030 SIGNAL TO NOISE RATIO                                            dB                         0          -32   8  ".
Definition b9461 : text := " 021031 VERTICALLY INTEGRATED LIQUID-WATER CONTENT                       KG/M**2                    0            0   7  ".
Definition b9462 : text := " 021036 RADAR RAINFALL INTENSITY                                         M/S                        7            0  12  ".
Definition b9463 : text := " 021041 BRIGHT-BAND HEIGHT                                               M                         -2            0   8  ".
Definition b9464 : text := " 021051 SIGNAL POWER ABOVE 1 MW                                          dB                         0         -256   8  ".
Definition b9465 : text := " 021062 BACKSCATTER                                                      dB                         2        -5000  13  ".
Definition b9466 : text := " 021063 RADIOMETRIC RESOLUTION (NOISE VALUE)                             %                          1            0  10  ".
Definition b9467 : text := " 021064 CLUTTER NOISE ESTIMATE                                           NUMERIC                    0            0   8  ".
Definition b9468 : text := " 021065 MISSING PACKET COUNTER                                           NUMERIC                    0         -127   8  ".
Definition b9469 : text := " 021066 WAVE SCATTEROMETER PRODUCT CONFIDENCE DATA                       FLAG TABLE 021066          0            0  12  ".
Definition b9470 : text := " 021067 WIND PRODUCT CONFIDENCE DATA                                     FLAG TABLE 021067          0            0  13  ".
Definition b9471 : text := " 021068 RADAR ALTIMETER PRODUCT CONFIDENCE DATA                          FLAG TABLE 021068          0            0   8  ".
Definition b9472 : text := " 021069 SST PRODUCT CONFIDENCE DATA                                      FLAG TABLE 021069          0            0  10  ".
Definition b9473 : text := " 021070 SST PRODUCT CONFIDENCE DATA (SADIST-2)                           FLAG TABLE 021070          0            0  23  ".
Definition b9474 : text := " 021071 PEAKINESS                                                        NUMERIC                    0            0  16  ".
Definition b9475 : text := " 021072 SATELLITE ALTIMETER CALIBRATION STATUS                           FLAG TABLE 021072          0            0   4  ".
Definition b9476 : text := " 021073 SATELLLITE ALTIMETER INSTRUMENT MODE                             FLAG TABLE 021073          0            0   9  ".
Definition b9477 : text := " 021075 IMAGE SPECTRUM INTENSITY                                         NUMERIC                    0            0   8  ".
Definition b9478 : text := " 021076 REPRESENTATION OF INTENSITIES                                    CODE TABLE 021076          0            0   3  ".
Definition b9479 : text := " 021077 ALTITUDE CORRECTION (IONOSPHERE)                                 M                          3            0  14  ".
Definition b9480 : text := " 021078 ALTITUDE CORRECTION (DRY TROPOSPHERE)                            M                          3            0   9  ".
Definition b9481 : text := " 021079 ALTITUDE CORRECTION (WET TROPOSPHERE)                            M                          3         2000  10  ".
Definition b9482 : text := " 021080 ALTITUDE CORRECTION (CALIBRATION CONSTANT)                       M                          3            0  11  ".
Definition b9483 : text := " 021081 OPEN LOOP CORRECTION (HEIGHT-TIME LOOP)                          M                          3            0  10  ".
Definition b9484 : text := " 021082 OPEN LOOP CORRECTION (AUTO GAIN CONTROL)                         dB                         3        -3000  14  ".
Definition b9485 : text := " 021083 WARM TARGET CALIBRATION                                          NUMERIC                    0            0  16  ".
Definition b9486 : text := " 021084 COLD TARGET CALIBRATION                                          NUMERIC                    0            0  16  ".
Definition b9487 : text := " 021085 ATSR SEA SURFACE TEMPERATURE ACROSS- TRACK BAND NUMBER           NUMERIC                    0            0   4  ".
Definition b9488 : text := " 021086 (CBS) NUMBER OF PIXELS IN NADIR ONLY, AVERAGE                    NUMERIC                    0            0   9  ".
Definition b9489 : text := " 021087 (CBS) NUMBER OF PIXELS IN DUAL VIEW, AVERAGE                     NUMERIC                    0            0   9  ".
Definition b9490 : text := " 021091 RADAR SIGNAL DOPPLER SPECTRUM 0TH MOMENT                         dB                         0         -100   8  ".
Definition b9491 : text := " 021092 RASS SIGNAL DOPPLER SPECTRUM 0TH MOMENT, REFERRING TO RASS SIGNA dB                         0         -100   8  ".
Definition b9492 : text := " 021101 NUMBER OF VECTOR AMBIGUITIES                                     NUMERIC                    0            0   3  ".
Definition b9493 : text := " 021102 INDEX OF SELECTED WIND VECTOR                                    NUMERIC                    0            0   3  ".
Definition b9494 : text := " 021103 TOTAL NUMBER OF SIGMA-0 MEASUREMENTS                             NUMERIC                    0            0   5  ".
Definition b9495 : text := " 021104 LIKELIHOOD COMPUTED FOR SOLUTION                                 NUMERIC                    3       -30000  15  ".
Definition b9496 : text := " 021105 NORMALIZED RADAR CROSS-SECTION                                   dB                         2       -10000  14  ".
Definition b9497 : text := " 021106 KP VARIANCE COEFFICIENT (ALPHA)                                  NUMERIC                    3            0  14  ".
Definition b9498 : text := " 021107 KP VARIANCE COEFFICIENT (BETA)                                   NUMERIC                    8            0  16  ".
Definition b9499 : text := " 021109 SEAWINDS WIND VECTOR CELL QUALITY                                FLAG TABLE 021109          0            0  17  ".
Definition b9500 : text := " 021110 NUMBER OF INNER-BEAM SIGMA-0 (FORWARD OF SATELLITE)              NUMERIC                    0            0   6  ".
Definition b9501 : text := " 021111 NUMBER OF OUTER-BEAM SIGMA-0 (FORWARD OF SATELLITE)              NUMERIC                    0            0   6  ".
Definition b9502 : text := " 021112 NUMBER OF INNER-BEAM SIGMA-0 (AFT OF SATELLITE)                  NUMERIC                    0            0   6  ".
Definition b9503 : text := " 021113 NUMBER OF OUTER-BEAM SIGMA-0 (AFT OF SATELLITE)                  NUMERIC                    0            0   6  ".
Definition b9504 : text := " 021114 KP VARIANCE COEFFICENT (GAMMA)                                   dB                         3      -140000  18  ".
Definition b9505 : text := " 021115 SEAWINDS SIGMA-0 QUALITY                                         FLAG TABLE 021115          0            0  17  ".
Definition b9506 : text := " 021116 SEAWINDS SIGMA-0 MODE                                            FLAG TABLE 021116          0            0  17  ".
Definition b9507 : text := " 021117 SIGMA-0 VARIANCE QUALITY CONTROL                                 NUMERIC                    2            0  16  ".
Definition b9508 : text := " 021118 ATTENUATION CORRECTION ON SIGMA-0                                dB                         2       -10000  14  ".
Definition b9509 : text := " 021119 WIND SCATTEROMETER GEOPHYSICAL MODEL FUNCTION                    CODE TABLE 021119          0            0   6  ".
Definition b9510 : text := " 021120 PROBABILITY OF RAIN                                              NUMERIC                    3            0  10  ".
Definition b9511 : text := " 021121 SEAWINDS NOF* RAIN INDEX                                         NUMERIC                    0            0   8  ".
Definition b9512 : text := " 021122 ATTENUATION CORRECTION OF SIGMA-0 (FROM TB)                      dB                         2       -10000  14  ".
Definition b9513 : text := " 021123 SEAWINDS NORMALIZED RADAR CROSS SECTION                          dB                         2       -30000  15  ".
Definition b9514 : text := " 021128 NUMBER OF VALID POINTS PER SECOND USED TO DERIVE PREVIOUS PARAME NUMERIC                    0            0   8  ".
Definition b9515 : text := " 021130 (CBS) SPECTRUM TOTAL ENERGY                                      NUMERIC                    6            0  28  ".
Definition b9516 : text := " 021131 (CBS) SPECTRUM MAX ENERGY                                        NUMERIC                    6            0  28  ".
Definition b9517 : text := " 021132 (CBS) DIRECTION OF SPECTRUM MAX ON HIGHER RESOLUTION GRID        DEGREE                     3            0  19  ".
Definition b9518 : text := " 021133 (CBS) WAVE-LENGTH OF SPECTRUM MAX ON HIGHER RESOLUTION GRID      M                          3            0  29  ".
Definition b9519 : text := " 021134 (CBS) RANGE RESOLUTION OF CRESS COVARIANCE SPECTRUM              RAD/M                      3            0  19  ".
Definition b9520 : text := " 021135 (CBS) REAL PART OF CROSS SPECTRA POLAR GRID NUMBER OF BINS       NUMERIC                    3      -524288  20  ".
Definition b9521 : text := " 021136 (CBS) IMAGINARY PART OF CROSS SPECTRA POLAR GRID NUMBER OF BINS  NUMERIC                    3      -524288  20  ".
Definition b9522 : text := " 021137 (CBS) KU BAND CORRECTED OCEAN BACKSCATTER COEFFICIENT            dB                         2       -32768  16  ".
Definition b9523 : text := " 021138 (CBS) STD KU BAND CORRECTED OCEAN BACKSCATTER COEFFICIENT        dB                         2       -32768  16  ".
Definition b9524 : text := " 021139 (CBS) KU BAND NET INSTRUMENTAL CORRECTION FOR ACG                dB                         2        -2048  12  ".
Definition b9525 : text := " 021140 (CBS) S BAND CORRECTED OCEAN BACKSCATTER COEFFICIENT             dB                         2       -32768  16  ".
Definition b9526 : text := " 021141 (CBS) STD S BAND CORRECTED OCEAN BACKSCATTER COEFFICIENT         dB                         2       -32768  16  ".
Definition b9527 : text := " 021142 (CBS) S BAND NET INSTRUMENTAL CORRECTION FOR ACG                 dB                         2        -1024  11  ".
Definition b9528 : text := " 021143 (CBS) KU BAND RAIN ATTENUATION                                   dB                         2  -1073741824  31  ".
Definition b9529 : text := " 021144 (CBS) ALTIMETER RAIN FLAG                                        FLAG TABLE 021144          0            0   2  ".
Definition b9530 : text := " 021192 RADAR BACK SCATTER                                               dB                         2        -5000  13  ".
Definition b9531 : text := " 021196 UWA PRODUCT CONFIDENCE                                           FLAG TABLE 021196          0            0  12  ".
Definition b9532 : text := " 021197 UWI PRODUCT CONFIDENCE                                           FLAG TABLE 021197          0            0  12  ".
Definition b9533 : text := " 021198 URA PRODUCT CONFIDENCE                                           FLAG TABLE 021198          0            0   8  ".
Definition b9534 : text := " 021199 UAT PRODUCT CONFIDENCE                                           FLAG TABLE 021199          0            0   7  ".
Definition b9535 : text := " 021200 MWI PRODUCT CONFIDENCE                                           FLAG TABLE 021200          0            0  15  ".
Definition b9536 : text := " 021202 ALTIMETER CALIBRATION STATUS                                     FLAG TABLE 021202          0            0   4  ".
Definition b9537 : text := " 021203 ALTIMETER INSTRUMENT MODE                                        FLAG TABLE 021203          0            0   9  ".
Definition b9538 : text := " 021206 REPRESENTATION OF INTENSITY                                      CODE TABLE 021206          0            0   3  ".
Definition b9539 : text := " 021214 UAT QUALITY SUMMARY                                              CODE TABLE 021214          0            0   3  ".
Definition b9540 : text := " 021225 PRESCAT PRODUCT CONFIDENCE                                       FLAG TABLE 021225          0            0   6  ".
Definition b9541 : text := " 021235 WIND VECTOR CELL QUALITY FLAG                                    FLAG TABLE 021235          0            0   3  ".
Definition b9542 : text := " 021244 SIGMA-0 QUALITY FLAG                                             FLAG TABLE 021244          0            0  15  ".
Definition b9543 : text := " 022001 DIRECTION OF WAVES                                               DEGREE TRUE                0            0   9  ".
Definition b9544 : text := " 022002 DIRECTION OF WIND WAVES                                          DEGREE TRUE                0            0   9  ".
Definition b9545 : text := " 022003 DIRECTION OF SWELL WAVES                                         DEGREE TRUE                0            0   9  ".
Definition b9546 : text := " 022004 DIRECTION OF CURRENT                                             DEGREE TRUE                0            0   9  ".
Definition b9547 : text := " 022011 PERIOD OF WAVES                                                  S                          0            0   6  ".
Definition b9548 : text := " 022012 PERIOD OF WIND WAVES                                             S                          0            0   6  ".
Definition b9549 : text := " 022013 PERIOD OF SWELL WAVES                                            S                          0            0   6  ".
Definition b9550 : text := " 022021 HEIGHT OF WAVES                                                  M                          1            0  10  ".
Definition b9551 : text := " 022022 HEIGHT OF WIND WAVES                                             M                          1            0  10  ".
Definition b9552 : text := " 022023 HEIGHT OF SWELL WAVES                                            M                          1            0  10  ".
Definition b9553 : text := " 022025 STANDARD DEVIATION WAVE HEIGHT                                   M                          2            0  10  ".
Definition b9554 : text := " 022026 STANDARD DEVIATION OF SIGNIFICANT WAVE HEIGHT                    M                          2            0  10  ".
Definition b9555 : text := " 022031 SPEED OF CURRENT                                                 M/S                        2            0  13  ".
Definition b9556 : text := " 022035 TIDAL ELEVATION WITH RESPECT TO LOCAL CHART DATUM                M                          2            0  14  ".
Definition b9557 : text := " 022036 METEOROLOGICAL RESIDUAL TIDAL ELEVATION (SURGE OR OFFSET)        M                          2            0  14  ".
Definition b9558 : text := " 022037 TIDAL ELEVATION WITH RESPECT TO NATIONAL LAND DATUM              M                          3       -10000  15  ".
Definition b9559 : text := " 022038 TIDAL ELEVATION WITH RESPECT TO LOCAL CHART DATUM                M                          3       -10000  15  ".
Definition b9560 : text := " 022039 METEOROLOGICAL RESIDUAL TIDAL ELEVATION (SURGE OR OFFSET)        M                          3        -5000  12  ".
Definition b9561 : text := " 022040 METEOROLOGICAL RESIDUAL TIDAL ELEVATION (SURGE OR OFFSET)        M                          3        -5000  14  ".
Definition b9562 : text := " 022041 SEA-SURFACE TEMPERATURE (15-DAY RUNNING MEAN)                    K                          1            0  12  ".
Definition b9563 : text := " 022042 SEA/WATER TEMPERATURE                                            K                          1            0  12  ".
Definition b9564 : text := " 022043 SEA/WATER TEMPERATURE                                            K                          2            0  15  ".
Definition b9565 : text := " 022044 SOUND VELOCITY                                                   M/S                        1            0  14  ".
Definition b9566 : text := " 022045 SEA/WATER TEMPERATURE                                            K                          3            0  19  ".
Definition b9567 : text := " 022050 STANDARD DEVIATION SEA-SURFACE TEMPERATURE                       K                          2            0   8  ".
Definition b9568 : text := " 022055 FLOAT CYCLE NUMBER                                               NUMERIC                    0            0  10  ".
Definition b9569 : text := " 022056 DIRECTION OF PROFILE                                             CODE TABLE 022056          0            0   2  ".
Definition b9570 : text := " 022060 (CBS) LAGRANGIAN DRIFTER DROGUE STATUS                           CODE TABLE 022060          0            0   3  ".
Definition b9571 : text := " 022061 STATE OF THE SEA                                                 CODE TABLE 022061          0            0   4  ".
Definition b9572 : text := " 022062 SALINITY                                                         PART PER THOUSAND          2            0  14  ".
Definition b9573 : text := " 022063 TOTAL WATER DEPTH                                                M                          0            0  14  ".
Definition b9574 : text := " 022064 SALINITY                                                         PART PER THOUSAND          3            0  17  ".
Definition b9575 : text := " 022065 WATER PRESSURE                                                   PA                        -3            0  17  ".
Definition b9576 : text := " 022066 WATER CONDUCTIVITY                                               S M-1                      6            0  26  ".
Definition b9577 : text := " 022067 INSTRUMENT TYPE FOR WATER TEMPERATURE PROFILE MEASUREMENT        CODE TABLE 022067          0            0  10  ".
Definition b9578 : text := " 022068 WATER TEMPERATURE PROFILE RECORDER TYPES                         CODE TABLE 022068          0            0   7  ".
Definition b9579 : text := " 022069 (CBS) SPECTRAL WAVE DENSITY                                      M2HZ-1                     3            0  22  ".
Definition b9580 : text := " 022070 SIGNIFICANT WAVE HEIGHT                                          M                          2            0  13  ".
Definition b9581 : text := " 022071 SPECTRAL PEAK WAVE PERIOD                                        S                          1            0   9  ".
Definition b9582 : text := " 022072 SPECTRAL PEAK WAVE LENGTH                                        M                          0            0  13  ".
Definition b9583 : text := " 022073 MAXIMUM WAVE HEIGHT                                              M                          2            0  13  ".
Definition b9584 : text := " 022074 AVERAGE WAVE PERIOD                                              S                          1            0   9  ".
Definition b9585 : text := " 022075 AVERAGE WAVE LENGTH                                              M                          0            0  13  ".
Definition b9586 : text := " 022076 DIRECTION FROM WHICH DOMINANT WAVES ARE COMING                   DEGREE TRUE                0            0   9  ".
Definition b9587 : text := " 022077 DIRECTIONAL SPREAD OF DOMINANT WAVE                              DEGREE                     0            0   9  ".
Definition b9588 : text := " 022078 DURATION OF WAVE RECORD                                          S                          0            0  12  ".
Definition b9589 : text := " 022079 LENGTH OF WAVE RECORD                                            M                          0            0  16  ".
Definition b9590 : text := " 022080 WAVEBAND CENTRAL FREQUENCY                                       Hz                         3            0  10  ".
Definition b9591 : text := " 022081 WAVEBAND CENTRAL WAVE NUMBER                                     1/M                        5            0  13  ".
Definition b9592 : text := " 022082 MAXIMUM NON-DIRECTIONAL SPECTRAL WAVE DENSITY                    M**2S                      2            0  20  ".
Definition b9593 : text := " 022083 MAXIMUM NON-DIRECTIONAL SPECTRAL WAVE NUMBER                     M**3                       2            0  20  ".
Definition b9594 : text := " 022084 BAND CONTAINING MAXIMUM NON- DIRECTIONAL SPECTRAL WAVE DENSITY   NUMERIC                    0            0   7  ".
Definition b9595 : text := " 022085 SPECTRAL WAVE DENSITY RATIO                                      NUMERIC                    0            0   7  ".
Definition b9596 : text := " 022086 MEAN DIRECTION FROM WHICH WAVES ARE COMING                       DEGREE TRUE                0            0   9  ".
Definition b9597 : text := " 022087 PRINCIPAL DIRECTION FROM WHICH WAVES ARE COMING                  DEGREE TRUE                0            0   9  ".
Definition b9598 : text := " 022088 FIRST NORMALIZED POLAR COORDINATE FROM FOURIER COEFFICIENTS      NUMERIC                    2            0   7  ".
Definition b9599 : text := " 022089 SECOND NORMALIZED POLAR COORDINATE FROM FOURIER COEFFICIENTS     NUMERIC                    2            0   7  ".
Definition b9600 : text := " 022090 NON-DIRECTIONAL SPECTRAL ESTIMATE BY WAVE FREQUENCY              M**2S                      2            0  20  ".
Definition b9601 : text := " 022091 NON-DIRECTIONAL SPECTRAL ESTIMATE BY WAVE NUMBER                 M**3                       2            0  20  ".
Definition b9602 : text := " 022092 DIRECTIONAL SPECTRAL ESTIMATE BY WAVE FREQUENCY                  M**2S/RAD                  2            0  20  ".
Definition b9603 : text := " 022093 DIRECTIONAL SPECTRAL ESTIMATE BY WAVE NUMBER                     M**4                       2            0  20  ".
Definition b9604 : text := " 022094 TOTAL NUMBER OF WAVE BANDS                                       NUMERIC                    0            0   7  ".
Definition b9605 : text := " 022095 DIRECTIONAL SPREAD OF INDIVIDUAL WAVES                           DEGREE                     0            0   8  ".
Definition b9606 : text := " 022096 SPECTRAL BAND WIDTH                                              1/S                        3            0   4  ".
Definition b9607 : text := " 022097 MEAN WAVELENGTH > 731 M OF IMAGE SPECTRUM AT LOW WAVE NUMBERS    M                          0            0  14  ".
Definition b9608 : text := " 022098 WAVELENGTH SPREAD (WAVELENGTH > 731 M) AT LOW WAVE NUMBERS       M                          0            0  14  ".
Definition b9609 : text := " 022099 MEAN DIRECTION AT LOW WAVE NUMBERS (WAVELENGTH > 731 M)          DEGREE TRUE                0            0   9  ".
Definition b9610 : text := " 022100 DIRECTION SPREAD AT LOW WAVE NUMBERS(WAVELENGTH > 731 M)         DEGREE                     0            0   9  ".
Definition b9611 : text := " 022101 TOTAL ENERGY (WAVELENGTH > 731M) AT LOW WAVE NUMBERS             NUMERIC                    0            0  31  ".
Definition b9612 : text := " 022120 TIDE STATION AUTOMATED WATER LEVEL CHECK                         CODE TABLE 022120          0            0   5  ".
Definition b9613 : text := " 022121 TIDE STATION MANUAL WATER LEVEL CHECK                            CODE TABLE 022121          0            0   5  ".
Definition b9614 : text := " 022122 TIDE STATION AUTOMATED METEOROLOGICAL DATA CHECK                 CODE TABLE 022122          0            0   5  ".
Definition b9615 : text := " 022123 TIDE STATION MANUAL METEOROLOGICAL DATA CHECK                    CODE TABLE 022123          0            0   5  ".
Definition b9616 : text := " 022141 SEA-SURFACE TEMPERATURE (15-DAY RUNNING MEAN)                    K                          2            0  15  ".
Definition b9617 : text := " 022150 (CBS) NUMBER OF 18 HZ VALID POINTS FOR KU BAND                   NUMERIC                    0            0  10  ".
Definition b9618 : text := " 022151 (CBS) KU BAND OCEAN RANGE                                        M                          3            0  31  ".
Definition b9619 : text := " 022152 (CBS) STD OF 18 HZ KU BAND OCEAN RANGE                           M                          3            0  16  ".
Definition b9620 : text := " 022153 (CBS) NUMBER OF 18 HZ VALID POINTS FOR S BAND                    NUMERIC                    0            0  10  ".
Definition b9621 : text := " 022154 (CBS) S BAND OCEAN RANGE                                         M                          3            0  31  ".
Definition b9622 : text := " 022155 (CBS) STD OF 18 HZ S BAND OCEAN RANGE                            M                          3            0  16  ".
Definition b9623 : text := " 022156 (CBS) KU BAND SIGNIFICANT WAVE HEIGHT                            M                          3            0  16  ".
Definition b9624 : text := " 022157 (CBS) STD 18HZ KU BAND SIGNIFICANT WAVE HEIGHT                   M                          3            0  16  ".
Definition b9625 : text := " 022158 (CBS) S BAND SIGNIFICANT WAVE HEIGHT                             M                          3            0  16  ".
Definition b9626 : text := " 022159 (CBS) STD 18HZ S BAND SIGNIFICANT WAVE HEIGHT                    M                          3            0  16  ".
Definition b9627 : text := " 022160 (CBS) NORMALIZED INVERSE WAVE AGE                                NUMERIC                    6            0  21  ".
Definition b9628 : text := " 022161 (CBS) WAVE SPECTRA                                               M**4                       4            0  27  ".
Definition b9629 : text := " 022192 SPECTRAL PERIOD                                                  S                          2            0  13  ".
Definition b9630 : text := " 023001 ACCIDENT EARLY NOTIFICATION - ARTICLE APPLICABLE                 CODE TABLE 023001          0            0   3  ".
Definition b9631 : text := " 023002 ACTIVITY OR FACILITY INVOLVED IN INCIDENT                        CODE TABLE 023002          0            0   5  ".
Definition b9632 : text := " 023003 TYPE OF RELEASE                                                  CODE TABLE 023003          0            0   3  ".
Definition b9633 : text := " 023004 COUNTERMEASURES TAKEN NEAR BORDER                                CODE TABLE 023004          0            0   3  ".
Definition b9634 : text := " 023005 CAUSE OF INCIDENT                                                CODE TABLE 023005          0            0   2  ".
Definition b9635 : text := " 023006 INCIDENT SITUATION                                               CODE TABLE 023006          0            0   3  ".
Definition b9636 : text := " 023007 CHARACTERISTICS OF RELEASE                                       CODE TABLE 023007          0            0   3  ".
Definition b9637 : text := " 023008 STATE OF CURRENT RELEASE                                         CODE TABLE 023008          0            0   2  ".
Definition b9638 : text := " 023009 STATE OF EXPECTED RELEASE                                        CODE TABLE 023009          0            0   2  ".
Definition b9639 : text := " 023016 POSSIBILITY OF SIGNIFICANT CHEMICAL TOXIC HEALTH EFFECT          CODE TABLE 023016          0            0   2  ".
Definition b9640 : text := " 023017 FLOW DISCHARGE OF MAJOR RECIPIENT                                M**3/S                     6            0  20  ".
Definition b9641 : text := " 023018 RELEASE BEHAVIOUR OVER TIME                                      CODE TABLE 023018          0            0   3  ".
Definition b9642 : text := " 023019 ACTUAL RELEASE HEIGHT                                            M                          0       -15000  17  ".
Definition b9643 : text := " 023021 EFFECTIVE RELEASE HEIGHT                                         M                          0       -15000  17  ".
Definition b9644 : text := " 023022 DISTANCE OF RELEASE POINT OR SITE OF INCIDENT                    M                          0            0  24  ".
Definition b9645 : text := " 023023 MAIN TRANSPORT SPEED IN THE ATMOSPHERE                           M/S                        1            0  12  ".
Definition b9646 : text := " 023024 MAIN TRANSPORT SPEED IN WATER                                    M/S                        2            0  13  ".
Definition b9647 : text := " 023025 MAIN TRANSPORT SPEED IN GROUND WATER                             M/S                        2            0  13  ".
Definition b9648 : text := " 023027 MAIN TRANSPORT DIRECTION IN THE ATMOSPHERE                       DEGREE TRUE                0            0   9  ".
Definition b9649 : text := " 023028 MAIN TRANSPORT DIRECTION IN WATER                                DEGREE TRUE                0            0   9  ".
Definition b9650 : text := " 023029 MAIN TRANSPORT DIRECTION IN GROUND WATER                         DEGREE TRUE                0            0   9  ".
Definition b9651 : text := " 023031 POSSIBILITY THAT PLUME WILL ENCOUNTER PRECIPITATION IN STATE IN  CODE TABLE 023031          0            0   2  ".
Definition b9652 : text := " 023032 PLUME WILL ENCOUNTER CHANGE IN WIND DIRECTION AND/OR SPEED FLAG  CODE TABLE 023032          0            0   2  ".
Definition b9653 : text := " 024001 ESTIMATE OF AMOUNT OF RADIOACTIVITY RELEASED UP TO SPECIFIED TIM Bq                       -11            0  28  ".
Definition b9654 : text := " 024002 ESTIMATED MAXIMUM POTENTIAL RELEASE                              Bq                       -11            0  28  ".
Definition b9655 : text := " 024003 COMPOSITION OF RELEASE                                           CODE TABLE 024003          0            0   5  ".
Definition b9656 : text := " 024004 ELEMENT NAME                                                     CCITTIA5                   0            0  16  ".
Definition b9657 : text := " 024005 ISOTOPE MASS                                                     NUMERIC                    0            0   9  ".
Definition b9658 : text := " 024011 DOSE                                                             mSv                        2            0  32  ".
Definition b9659 : text := " 024012 TRAJECTORY DOSE (DEFINED LOCATION AND EXPECTED TIME OF ARRIVAL)  mSv                        2            0  32  ".
Definition b9660 : text := " 024013 GAMMA DOSE IN AIR ALONG THE MAIN TRANSPORT PATH (DEFINED LOCATIO mSv                        2            0  32  ".
Definition b9661 : text := " 024021 AIR CONCENTRATION (OF NAMED ISOTOPE TYPE INCLUDING GROSS BETA)   Bq/M**3                    2            0  32  ".
Definition b9662 : text := " 024022 CONCENTRATION IN PRECIPITATION (OF NAMES ISOTOPE TYPE)           Bq/L                       2            0  32  ".
Definition b9663 : text := " 024023 PULSE RATE OF BETA RADIATION                                     1/S                        1            0  14  ".
Definition b9664 : text := " 024024 PULSE RATE OF GAMMA RADIATION                                    1/S                        1            0  14  ".
Definition b9665 : text := " 025001 RANGE-GATE LENGTH                                                M                         -1            0   6  ".
Definition b9666 : text := " 025002 NUMBER OF GATES AVERAGED                                         NUMERIC                    0            0   4  ".
Definition b9667 : text := " 025003 NUMBER OF INTEGRATED PULSES                                      NUMERIC                    0            0   8  ".
Definition b9668 : text := " 025004 ECHO PROCESSING                                                  CODE TABLE 025004          0            0   2  ".
Definition b9669 : text := " 025005 ECHO INTEGRATION                                                 CODE TABLE 025005          0            0   2  ".
Definition b9670 : text := " 025006 Z TO R CONVERSION                                                CODE TABLE 025006          0            0   3  ".
Definition b9671 : text := " 025007 Z TO R CONVERSION FACTOR                                         NUMERIC                    0            0  12  ".
Definition b9672 : text := " 025008 Z TO R CONVERSION EXPONENT                                       NUMERIC                    2            0   9  ".
Definition b9673 : text := " 025009 CALIBRATION METHOD                                               FLAG TABLE 025009          0            0   4  ".
Definition b9674 : text := " 025010 CLUTTER TREATMENT                                                CODE TABLE 025010          0            0   4  ".
Definition b9675 : text := " 025011 GROUND OCCULTATION CORRECTION (SCREENING)                        CODE TABLE 025011          0            0   2  ".
Definition b9676 : text := " 025012 RANGE ATTENUATION CORRECTION                                     CODE TABLE 025012          0            0   2  ".
Definition b9677 : text := " 025013 BRIGHT-BAND CORRECTION                                           FLAG TABLE 025013          0            0   2  ".
Definition b9678 : text := " 025014 AZIMUTH CLUTTER CUT-OFF (SEE NOTE 1)                             NUMERIC                    0            0  12  ".
Definition b9679 : text := " 025015 RADOME ATTENUATION CORRECTION                                    FLAG TABLE 025015          0            0   2  ".
Definition b9680 : text := " 025016 CLEAR-AIR ATTENUATION CORRECTION                                 dB/M                       5            0   6  ".
Definition b9681 : text := " 025017 PRECIPITATION ATTENUATION CORRECTION                             FLAG TABLE 025017          0            0   2  ".
Definition b9682 : text := " 025018 A TO Z LAW FOR ATTENUATION FACTOR                                NUMERIC                    7            0   6  ".
Definition b9683 : text := " 025019 A TO Z LAW FOR ATTENUATION EXPONENT                              NUMERIC                    2            0   7  ".
Definition b9684 : text := " 025020 MEAN SPEED ESTIMATION                                            CODE TABLE 025020          0            0   2  ".
Definition b9685 : text := " 025021 WIND COMPUTATION ENHANCEMENT                                     FLAG TABLE 025021          0            0   8  ".
Definition b9686 : text := " 025025 BATTERY VOLTAGE                                                  V                          1            0   9  ".
Definition b9687 : text := " 025026 (CBS) BATTERY VOLTAGE (LARGE RANGE)                              V                          1            0  12  ".
Definition b9688 : text := " 025028 (CBS) OPERATOR OR MANUFACTURER DEFINED PARAMETER                 NUMERIC                    1       -16384  15  ".
Definition b9689 : text := " 025030 RUNNING MEAN SEA-SURFACE TEMPERATURE USAGE                       CODE TABLE 025030          0            0   2  ".
Definition b9690 : text := " 025032 WIND PROFILER MODE INFORMATION                                   CODE TABLE 025032          0            0   2  ".
Definition b9691 : text := " 025033 WIND PROFILER SUBMODE INFORMATION*                               CODE TABLE 025033          0            0   2  ".
Definition b9692 : text := " 025034 WIND PROFILER QUALITY CONTROL TEST RESULTS*                      FLAG TABLE 025034          0            0   4  ".
Definition b9693 : text := " 025036 ATMOSPHERICS LOCATION METHOD                                     CODE TABLE 025036          0            0   4  ".
Definition b9694 : text := " 025040 CO2 WIND PRODUCT DERIVATION                                      CODE TABLE 025040          0            0   4  ".
Definition b9695 : text := " 025041 MOVING PLATFORM DIRECTION REPORTING METHOD                       CODE TABLE 025041          0            0   2  ".
Definition b9696 : text := " 025042 MOVING PLATFORM SPEED REPORTING METHOD                           CODE TABLE 025042          0            0   2  ".
Definition b9697 : text := " 025043 WAVE SAMPLING INTERVAL (TIME)                                    S                          4            0  15  ".
Definition b9698 : text := " 025044 WAVE SAMPLING INTERVAL (SPACE)                                   M                          2            0  14  ".
Definition b9699 : text := " 025045 HIRS CHANNEL COMBINATION                                         FLAG TABLE 025045          0            0  21  ".
Definition b9700 : text := " 025046 MSU CHANNEL COMBINATION                                          FLAG TABLE 025046          0            0   5  ".
Definition b9701 : text := " 025047 SSU CHANNEL COMBINATION                                          FLAG TABLE 025047          0            0   4  ".
Definition b9702 : text := " 025048 AMSU-A CHANNEL COMBINATION                                       FLAG TABLE 025048          0            0  16  ".
Definition b9703 : text := " 025049 AMSU-B CHANNEL COMBINATION                                       FLAG TABLE 025049          0            0   6  ".
Definition b9704 : text := " 025051 AVHRR CHANNEL COMBINATION                                        FLAG TABLE 025051          0            0   7  ".
Definition b9705 : text := " 025052 (CBS) LOG-10 OF PRINCIPAL COMPONENTS NORMALIZED FIT TO DATA      NUMERIC                    4            0  15  ".
Definition b9706 : text := " 025053 OBSERVATION QUALITY                                              FLAG TABLE 025053          0            0  12  ".
Definition b9707 : text := " 025054 SSMIS SUBFRAME ID NEMBER                                         NUMERIC                    0            0   5  ".
Definition b9708 : text := " 025055 MULTIPLEXER HOUSEKEEPING                                         K                          2            0  16  ".
Definition b9709 : text := " 025060 SOFTWARE IDENTIFICATION (SEE NOTE 2)                             NUMERIC                    0            0  14  ".
Definition b9710 : text := " 025061 SOFTWARE IDENTIFICATION AND VERSION NUMBER                       CCITTIA5                   0            0  96  ".
Definition b9711 : text := " 025065 ORIENTATION CORRECTION (AZIMUTH)                                 DEGREE                     2        -1000  11  ".
Definition b9712 : text := " 025066 ORIENTATION CORRECTION (ELEVATION)                               DEGREE                     2        -1000  11  ".
Definition b9713 : text := " 025067 RADIOSONDE RELEASE POINT PRESSURE CORRECTION                     PA                         0        -8000  14  ".
Definition b9714 : text := " 025068 NUMBER OF ARCHIVE RECOMPUTES                                     NUMERIC                    0            0   7  ".
Definition b9715 : text := " 025069 FLIGHT LEVEL PRESSURE CORRECTIONS                                FLAG TABLE 025069          0            0   8  ".
Definition b9716 : text := " 025070 MAJOR FRAME COUNT                                                NUMERIC                    0            0   4  ".
Definition b9717 : text := " 025071 FRAME COUNT                                                      NUMERIC                    0            0   5  ".
Definition b9718 : text := " 025075 SATELLITE ANTENNA CORRECTIONS VERSION NUMBER                     NUMERIC                    0            0   5  ".
Definition b9719 : text := " 025076 LOG-10 OF (TEMPERATURE-RADIANCE CENTRAL WAVENUMBER) FOR ATOVS    LOG (1/M)                  8            0  30  ".
Definition b9720 : text := " 025077 BANDWIDTH CORRECTION COEFFICIENT 1 FOR ATOVS                     NUMERIC                    5      -100000  18  ".
Definition b9721 : text := " 025078 BANDWIDTH CORRECTION COEFFICIENT 2 FOR ATOVS                     NUMERIC                    5            0  17  ".
Definition b9722 : text := " 025079 ALBEDO-RADIANCE SOLAR FILTERED IRRADIANCE FOR ATOVS              W/M**2                     4            0  24  ".
Definition b9723 : text := " 025080 ALBEDO-RADIANCE EQUIVALENT FILTER WIDTH FOR ATOVS                M                         10            0  14  ".
Definition b9724 : text := " 025085 FRACTION OF CLEAR PIXELS IN HIRS FOV                             NUMERIC                    0            0   7  ".
Definition b9725 : text := " 025086 DEPTH CORRECTION INDICATOR                                       CODE TABLE 025086          0            0   2  ".
Definition b9726 : text := " 025091 STRUCTURE CONSTANT OF THE REFRACTION INDEX (CN2)                 dB                         3       -18192  13  ".
Definition b9727 : text := " 025092 ACOUSTIC PROPAGATION VELOCITY                                    M/S                        2        28000  14  ".
Definition b9728 : text := " 025093 RASS COMPUTATION CORRECTION                                      FLAG TABLE 025093          0            0   8  ".
Definition b9729 : text := " 025095 ALTIMETER STATE FLAG                                             FLAG TABLE 025095          0            0   2  ".
Definition b9730 : text := " 025096 RADIOMETER STATE FLAG                                            FLAG TABLE 025096          0            0   5  ".
Definition b9731 : text := " 025097 THREE DIMENSIONAL ERROR ESTIMATE OF THE NAVIGATOR ORBIT          CODE TABLE 025097          0            0   4  ".
Definition b9732 : text := " 025100 XBT/XCTD FALL RATE EQUATION COEFFICIENT A                        NUMERIC                    5            0  20  ".
Definition b9733 : text := " 025101 XBT/XCTD FALL RATE EQUATION COEFFICIENT B                        NUMERIC                    5      -500000  21  ".
Definition b9734 : text := " 025102 (CBS) NUMBER OF MISSING LINES EXCLUDING DATA GAPS                NUMERIC                    0            0   8  ".
Definition b9735 : text := " 025103 (CBS) NUMBER OF DIRECTIONAL BINS                                 NUMERIC                    0            0   8  ".
Definition b9736 : text := " 025104 (CBS) NUMBER OF WAVE-LENGTH BINS                                 NUMERIC                    0            0   8  ".
Definition b9737 : text := " 025107 (CBS) FIRST WAVE-LENGTH BIN                                      M                          3            0  29  ".
Definition b9738 : text := " 025108 (CBS) LAST WAVE-LENGTH BIN                                       M                          3            0  29  ".
Definition b9739 : text := " 025111 (CBS) NUMBER OF INPUT DATA GAPS                                  NUMERIC                    0            0   8  ".
Definition b9740 : text := " 025120 (CBS) RA2-L2-PROCESSING FLAG                                     CODE TABLE 025120          0            0   2  ".
Definition b9741 : text := " 025121 (CBS) RA2-L2-PROCESSING QUALITY                                  %                          0            0   7  ".
Definition b9742 : text := " 025122 (CBS) HARDWARE CONFIGURATION FOR RF                              CODE TABLE 025122          0            0   2  ".
Definition b9743 : text := " 025123 (CBS) HARDWARE CONFIGURATION FOR HPA                             CODE TABLE 025123          0            0   2  ".
Definition b9744 : text := " 025124 (CBS) MWR L2 PROCESSING FLAG                                     CODE TABLE 025124          0            0   2  ".
Definition b9745 : text := " 025125 (CBS) MWR L2-PROCESSING QUALITY                                  %                          0            0   7  ".
Definition b9746 : text := " 025126 (CBS) MODEL DRY TROPOSPHERIC CORRECTION                          M                          3       -32768  16  ".
Definition b9747 : text := " 025127 (CBS) INVERTED BAROMETER CORRECTION                              M                          3       -32768  16  ".
Definition b9748 : text := " 025128 (CBS) MODEL WET TROPOSPHERIC CORRECTION                          M                          3       -32768  16  ".
Definition b9749 : text := " 025129 (CBS) MWR DERIVED WET TROPOSPHERIC CORRECTION                    M                          3       -32768  16  ".
Definition b9750 : text := " 025130 (CBS) RA2 IONOSPHERIC CORRECTION ON KU BAND                      M                          3       -32768  16  ".
Definition b9751 : text := " 025131 (CBS) IONOSPHERIC CORRECTION FROM DORIS ON KU BAND               M                          3       -32768  16  ".
Definition b9752 : text := " 025132 (CBS) IONOSPHERIC CORRECTION FROM MODEL ON KU BAND               M                          3       -32768  16  ".
Definition b9753 : text := " 025133 (CBS) SEA STATE BIAS CORRECTION ON KU BAND                       M                          3       -32768  16  ".
Definition b9754 : text := " 025134 (CBS) RA2 IONOSPHERIC CORRECTION ON S BAND                       M                          3       -32768  16  ".
Definition b9755 : text := " 025135 (CBS) IONOSPHERIC CORRECTION FROM DORIS ON S BAND                M                          3       -32768  16  ".
Definition b9756 : text := " 025136 (CBS) IONOSPHERIC CORRECTION FROM MODEL ON S BAND                M                          3       -32768  16  ".
Definition b9757 : text := " 025137 (CBS) SEA STATE BIAS CORRECTION ON S BAND                        M                          3       -32768  16  ".
Definition b9758 : text := " 025138 (CBS) AVERAGE SIGNAL TO NOISE RATION                             NUMERIC                    0        -2048  12  ".
Definition b9759 : text := " 025143 (VAL) LINEAR COEFFICIENT                                         NUMERIC                    6     -5000000  24  ".
Definition b9760 : text := " 025144 (VAL) MATRIX DIMENSION (I AXIS)                                  NUMERIC                    0            0   9  ".
Definition b9761 : text := " 025145 (VAL) MATRIX DIMENSION (J AXIS)                                  NUMERIC                    0            0   9  ".
Definition b9762 : text := " 025150 SATELLITE INTENSITY ANALYSIS METHOD OF TROPICAL CYCLONE          CODE TABLE 025150          0            0   4  ".
Definition b9763 : text := " 025203 SCAN LINE STATUS FLAGS FOR ATOVS                                 FLAG TABLE 025203          0            0  31  ".
Definition b9764 : text := " 025204 SCAN LINE QUALITY FLAGS FOR ATOVS                                FLAG TABLE 025204          0            0  31  ".
Definition b9765 : text := " 025205 CHANNEL QUALITY FLAGS FOR ATOVS                                  FLAG TABLE 025205          0            0  31  ".
Definition b9766 : text := " 025206 FOV QUALITY FLAGS FOR ATOVS                                      FLAG TABLE 025206          0            0  31  ".
Definition b9767 : text := " 026001 PRINCIPAL TIME OF DAILY READING IN UTC OF MAXIMUM TEMPERATURE    HOUR                       1            0  12  ".
Definition b9768 : text := " 026002 PRINCIPAL TIME OF DAILY READING IN UTC OF MINIMUM TEMPERATURE    HOUR                       1            0  12  ".
Definition b9769 : text := " 026003 TIME DIFFERENCE                                                  MINUTE                     0        -1440  12  ".
Definition b9770 : text := " 026010 HOURS INCLUDED                                                   FLAG TABLE 026010          0            0  26  ".
Definition b9771 : text := " 026020 DURATION OF PRECIPITATION                                        MINUTE                     0            0  11  ".
Definition b9772 : text := " 026201 HOURS INCLUDED                                                   FLAG TABLE 026201          0            0  26  ".
Definition b9773 : text := " 027001 LATITUDE (HIGH ACCURACY)                                         DEGREE                     5     -9000000  25  ".
Definition b9774 : text := " 027002 LATITUDE (COARSE ACCURACY)                                       DEGREE                     2        -9000  15  ".
Definition b9775 : text := " 027003 ALTERNATE LATITUDE (COARSE ACCURACY)                             DEGREE                     2        -9000  15  ".
Definition b9776 : text := " 027004 ALTERNATE LATITUDE (HIGH ACCURACY)                               DEGREE                     5     -9000000  25  ".
Definition b9777 : text := " 027020 SATELLITE LOCATION COUNTER                                       NUMERIC                    0            0  16  ".
Definition b9778 : text := " 027021 SATELLITE SUBLOCATION DIMENSION                                  NUMERIC                    0            0  16  ".
Definition b9779 : text := " 027031 IN DIRECTION OF 0 DEGREES LONGITUDE, DISTANCE FROM THE EARTH'S C M                          2  -1073741824  31  ".
Definition b9780 : text := " 027035 (VAL) LENGTH OF PHENOMENON                                       M                         -3            0  13  ".
Definition b9781 : text := " 027080 (CBS) VIEWING AZIMUTH ANGLE                                      DEGREE TRUE                2            0  16  ".
Definition b9782 : text := " 028001 LONGITUDE (HIGH ACCURACY)                                        DEGREE                     5    -18000000  26  ".
Definition b9783 : text := " 028002 LONGITUDE (COARSE ACCURACY)                                      DEGREE                     2       -18000  16  ".
Definition b9784 : text := " 028003 ALTERNATE LONGITUDE (COARSE ACCURACY)                            DEGREE                     2       -18000  16  ".
Definition b9785 : text := " 028004 ALTERNATE LONGITUDE (HIGH ACCURACY)                              DEGREE                     5    -18000000  26  ".
Definition b9786 : text := " 028031 IN DIRECTION 90 DEGREES EAST, DISTANCE FROM THE EARTH'S CENTRE   M                          2  -1073741824  31  ".
Definition b9787 : text := " 028035 (VAL) WIDTH OF PHENOMENON                                        M                         -3            0  13  ".
Definition b9788 : text := " 029001 PROJECTION TYPE                                                  CODE TABLE 029001          0            0   3  ".
Definition b9789 : text := " 029002 CO-ORDINATE GRID TYPE                                            CODE TABLE 029002          0            0   3  ".
Definition b9790 : text := " 030001 PIXEL VALUE (4 BITS)                                             NUMERIC                    0            0   4  ".
Definition b9791 : text := " 030002 PIXEL VALUE (8 BITS)                                             NUMERIC                    0            0   8  ".
Definition b9792 : text := " 030004 PIXEL VALUE (16 BITS)                                            NUMERIC                    0            0  16  ".
Definition b9793 : text := " 030021 NUMBER OF PIXELS PER ROW                                         NUMERIC                    0            0  12  ".
Definition b9794 : text := " 030022 NUMBER OF PIXELS PER COLUMN                                      NUMERIC                    0            0  12  ".
Definition b9795 : text := " 030031 PICTURE TYPE                                                     CODE TABLE 030031          0            0   4  ".
Definition b9796 : text := " 030032 COMBINATION WITH OTHER DATA                                      FLAG TABLE 030032          0            0  16  ".
Definition b9797 : text := " 031000 SHORT DELAYED DESCRIPTOR REPLICATION FACTOR                      NUMERIC                    0            0   1  ".
Definition b9798 : text := " 031001 DELAYED DESCRIPTOR REPLICATION FACTOR                            NUMERIC                    0            0   8  ".
Definition b9799 : text := " 031002 EXTENDED DELAYED DESCRIPTOR REPLICATION FACTOR                   NUMERIC                    0            0  16  ".
Definition b9800 : text := " 031011 DELAYED DESCRIPTOR AND DATA REPETITION FACTOR                    NUMERIC                    0            0   8  ".
Definition b9801 : text := " 031012 EXTENDED DELAYED DESCRIPTOR AND DATA REPETITION FACTOR           NUMERIC                    0            0  16  ".
Definition b9802 : text := " 031021 ASSOCIATED FIELD SIGNIFICANCE                                    CODE TABLE 031021          0            0   6  ".
Definition b9803 : text := " 031031 DATA PRESENT INDICATOR                                           FLAG TABLE 031031          0            0   1  ".
Definition b9804 : text := " 031192 DATA PRESENT INDICATOR                                           NUMERIC                    0            0   1  ".
Definition b9805 : text := " 033002 QUALITY INFORMATION                                              CODE TABLE 033002          0            0   2  ".
Definition b9806 : text := " 033003 QUALITY INFORMATION                                              CODE TABLE 033003          0            0   3  ".
Definition b9807 : text := " 033005 QUALITY INFORMATION (AWS DATA)                                   FLAG TABLE 033005          0            0  30  ".
Definition b9808 : text := " 033006 INTERNAL MEASUREMENT STATUS INFORMATION (AWS)                    CODE TABLE 033006          0            0   3  ".
Definition b9809 : text := " 033007 PER CENT CONFIDENCE                                              %                          0            0   7  ".
Definition b9810 : text := " 033015 DATA QUALITY CHECK INDICATOR                                     CODE TABLE 033015          0            0   6  ".
Definition b9811 : text := " 033020 QUALITY CONTROL INDICATION OF FOLLOWING VALUE                    CODE TABLE 033020          0            0   3  ".
Definition b9812 : text := " 033021 QUALITY OF FOLLOWING VALUE                                       CODE TABLE 033021          0            0   2  ".
Definition b9813 : text := " 033022 QUALITY OF BUOY SATELLITE TRANSMISSION                           CODE TABLE 033022          0            0   2  ".
Definition b9814 : text := " 033023 QUALITY OF BUOY LOCATION                                         CODE TABLE 033023          0            0   2  ".
Definition b9815 : text := " 033024 STATION ELEVATION QUALITY MARK (FOR MOBILE STATIONS)             CODE TABLE 033024          0            0   4  ".
Definition b9816 : text := " 033025 ACARS INTERPOLATED VALUES                                        CODE TABLE 033025          0            0   3  ".
Definition b9817 : text := " 033026 MOISTURE QUALITY                                                 CODE TABLE 033026          0            0   6  ".
Definition b9818 : text := " 033027 LOCATION QUALITY CLASS (RANGE OF RADIUS OF 66 % CONFIDENCE)      CODE TABLE 033027          0            0   3  ".
Definition b9819 : text := " 033030 SCAN LINE STATUS FLAGS FOR ATOVS                                 FLAG TABLE 033030          0            0  24  ".
Definition b9820 : text := " 033031 SCAN LINE QUALITY FLAGS FOR ATOVS                                FLAG TABLE 033031          0            0  24  ".
Definition b9821 : text := " 033032 CHANNEL QUALITY FLAGS FOR ATOVS                                  FLAG TABLE 033032          0            0  24  ".
Definition b9822 : text := " 033033 FIELD OF VIEW QUALITY FLAGS FOR ATOVS                            FLAG TABLE 033033          0            0  24  ".
Definition b9823 : text := " 033035 MANUAL/AUTOMATIC QUALITY CONTROL                                 CODE TABLE 033035          0            0   4  ".
Definition b9824 : text := " 033036 NOMINAL CONFIDENCE THRESHOLD                                     %                          0            0   7  ".
Definition b9825 : text := " 033037 WIND CORRELATION ERROR                                           FLAG TABLE 033037          0            0  20  ".
Definition b9826 : text := " 033038 QUALITY FLAGS FOR GROUND-BASED GNSS DATA                         FLAG TABLE 033038          0            0  10  ".
Definition b9827 : text := " 033039 (CBS) QUALITY FLAGS FOR RADIO OCCULTATION DATA                   FLAG TABLE 033039          0            0  16  ".
Definition b9828 : text := " 033040 CONFIDENCE INTERVAL                                              %                          0            0   7  ".
Definition b9829 : text := " 033041 ATTRIBUTE OF FOLLOWING VALUE                                     CODE TABLE 033041          0            0   2  ".
Definition b9830 : text := " 033042 (CBS)  TYPE OF LIMIT REPRESENTED BY FOLLOWING VALUE              CODE TABLE 033042          0            0   3  ".
Definition b9831 : text := " 033043 (CBS) AST CONFIDENCE                                             FLAG TABLE 033043          0            0   8  ".
Definition b9832 : text := " 033044 (CBS) ASAR QUALITY INFORMATION                                   FLAG TABLE 033044          0            0  15  ".
Definition b9833 : text := " 033045 (CBS) PROBABILITY OF FOLLOWING EVENT                             %                          0            0   7  ".
Definition b9834 : text := " 033046 (CBS) CONDITIONAL PROBABILITY OF FOLLOWING EVENT WITH RESPECT TO %                          0            0   7  ".
Definition b9835 : text := " 033047 (CBS) MEASUREMENT CONFIDENCE DATA                                FLAG TABLE 033047          0            0  31  ".
Definition b9836 : text := " 033048 (CBS) CONFIDENCE MEASURE OF SAR INVERSION                        CODE TABLE 033048          0            0   2  ".
Definition b9837 : text := " 033049 (CBS) CONFIDENCE MEASURE OF WIND RETRIEVAL                       CODE TABLE 033049          0            0   2  ".
Definition b9838 : text := " 033050 GLOBAL GTSPP QUALITY FLAG                                        CODE TABLE 033050          0            0   4  ".
Definition b9839 : text := " 033052 (CBS) S BAND OCEAN RETRACKING QUALITY                            FLAG TABLE 033052          0            0  21  ".
Definition b9840 : text := " 033053 (CBS) KU BAND OCEAN RETRACKING QUALITY                           FLAG TABLE 033053          0            0  21  ".
Definition b9841 : text := " 033192 TEM1 CONFIDENCE                                                  %                          0            0   7  ".
Definition b9842 : text := " 033193 DATA QUALITY 3 BIT CODE                                          CODE TABLE 033193          0            0   3  ".
Definition b9843 : text := " 033194 DATA QUALITY 2 BIT CODE                                          CODE TABLE 033194          0            0   2  ".
Definition b9844 : text := " 033195 ECMWF SAR QC INDICATOR                                           CODE TABLE 033195          0            0   5  ".
Definition b9845 : text := " 033196 ECMWF WAM QC INDICATOR                                           CODE TABLE 033196          0            0   2  ".
Definition b9846 : text := " 033197 ECMWF SAR INVERSION QC INDICATOR                                 CODE TABLE 033197          0            0   3  ".
Definition b9847 : text := " 033200 ANALYSIS REPORT EVENTS                                           FLAG TABLE 033200          0            0  31  ".
Definition b9848 : text := " 033201 ANALYSIS REPORT STATUS EVENT                                     FLAG TABLE 033201          0            0  13  ".
Definition b9849 : text := " 033202 ANALYSIS DATUM EVENT FLAGS (1)                                   FLAG TABLE 033202          0            0  31  ".
Definition b9850 : text := " 033203 ANALYSIS DATUM EVENT FLAGS (2)                                   FLAG TABLE 033203          0            0  11  ".
Definition b9851 : text := " 033204 ANALYSIS DATUM STATUS FLAGS                                      FLAG TABLE 033204          0            0  21  ".
Definition b9852 : text := " 033205 VARIATIONAL ANALYSIS BLACK LIST FLAG                             CODE TABLE 033205          0            0   4  ".
Definition b9853 : text := " 033206 VARIATIONAL ANALYSIS QUALITY CONTROL FLAG                        CODE TABLE 033206          0            0   4  ".
Definition b9854 : text := " 033207 VARIATIONAL ANALYSIS DEPARTURE FLAG                              CODE TABLE 033207          0            0   4  ".
Definition b9855 : text := " 033208 VARIATIONAL ANALYSIS FIRST QUESS CHECK FLAG                      CODE TABLE 033208          0            0   4  ".
Definition b9856 : text := " 033209 VARIATIONAL ANALYSIS FINAL FLAG                                  CODE TABLE 033209          0            0   4  ".
Definition b9857 : text := " 033214 1D VAR ERROR(S)                                                  FLAG TABLE 033214          0            0  11  ".
Definition b9858 : text := " 033216 1D VAR SURFACE TYPE QUALITY CONTROL                              CODE TABLE 033216          0            0   3  ".
Definition b9859 : text := " 033217 1D VAR FAILURE INDICATOR                                         CODE TABLE 033217          0            0   2  ".
Definition b9860 : text := " 033220 VARIATIONAL ANALYSIS REPORT EVENTS (1)                           FLAG TABLE 033220          0            0  31  ".
Definition b9861 : text := " 033221 VARIATIONAL ANALYSIS SYNOP EVENTS (2)                            FLAG TABLE 033221          0            0  31  ".
Definition b9862 : text := " 033222 VARIATIONAL ANALYSIS AIREP EVENTS (2)                            FLAG TABLE 033222          0            0  31  ".
Definition b9863 : text := " 033223 VARIATIONAL ANALYSIS SATOB EVENTS (2)                            FLAG TABLE 033223          0            0  31  ".
Definition b9864 : text := " 033224 VARIATIONAL ANALYSIS DRIBU EVENTS (2)                            FLAG TABLE 033224          0            0  31  ".
Definition b9865 : text := " 033225 VARIATIONAL ANALYSIS TEMP EVENTS (2)                             FLAG TABLE 033225          0            0  31  ".
Definition b9866 : text := " 033226 VARIATIONAL ANALYSIS PILOT EVENTS (2)                            FLAG TABLE 033226          0            0  31  ".
Definition b9867 : text := " 033227 VARIATIONAL ANALYSIS SATEM/TOVS EVENTS (2)                       FLAG TABLE 033227          0            0  31  ".
Definition b9868 : text := " 033228 VARIATIONAL ANALYSIS PAOB EVENTS (2)                             FLAG TABLE 033228          0            0  31  ".
Definition b9869 : text := " 033229 VARIATIONAL ANALYSIS SCATTEROMETER EVENTS (2)                    FLAG TABLE 033229          0            0  31  ".
Definition b9870 : text := " 033230 VARIATIONAL ANALYSIS RAW RADIANCES EVENTS (2)                    FLAG TABLE 033230          0            0  31  ".
Definition b9871 : text := " 033231 PRESAT SUMMARY FLAGS                                             FLAG TABLE 033231          0            0   6  ".
Definition b9872 : text := " 033232 REPORT BLACK LIST EVENTS                                         FLAG TABLE 033232          0            0  31  ".
Definition b9873 : text := " 033233 VARIATIONAL ANALYSIS REPORT STATUS                               FLAG TABLE 033233          0            0  31  ".
Definition b9874 : text := " 033234 VARIATIONAL ANALYSIS DATUM STATUS                                FLAG TABLE 033234          0            0  31  ".
Definition b9875 : text := " 033236 VARIATIONAL ANALYSIS DATUM EVENTS (1)                            FLAG TABLE 033236          0            0  31  ".
Definition b9876 : text := " 033237 VARIATIONAL ANALYSIS SYNOP DATUM EVENTS (2)                      FLAG TABLE 033237          0            0  31  ".
Definition b9877 : text := " 033238 VARIATIONAL ANALYSIS AIREP DATUM EVENTS (2)                      FLAG TABLE 033238          0            0  31  ".
Definition b9878 : text := " 033239 VARIATIONAL ANALYSIS SATOB DATUM EVENTS (2)                      FLAG TABLE 033239          0            0  31  ".
Definition b9879 : text := " 033240 VARIATIONAL ANALYSIS DRIBU DATUM EVENTS (2)                      FLAG TABLE 033240          0            0  31  ".
Definition b9880 : text := " 033242 GROSS ERROR INDICATOR                                            CODE TABLE 033242          0            0   2  ".
Definition b9881 : text := " 033243 VARIATIONAL ANALYSIS TEMP DATUM EVENTS (2)                       FLAG TABLE 033243          0            0  31  ".
Definition b9882 : text := " 033244 VARIATIONAL ANALYSIS PILOT DATUM EVENTS (2)                      FLAG TABLE 033244          0            0  31  ".
Definition b9883 : text := " 033245 VARIATIONAL ANALYSIS SATEM/TOVS DATUM EVENTS (2)                 FLAG TABLE 033245          0            0  31  ".
Definition b9884 : text := " 033246 VARIATIONAL ANALYSIS PAOB DATUM EVENTS (2)                       FLAG TABLE 033246          0            0  31  ".
Definition b9885 : text := " 033247 VARIATIONAL ANALYSIS SCATTEROMETER DATUM EVENTS (2)              FLAG TABLE 033247          0            0  31  ".
Definition b9886 : text := " 033248 VARIATIONAL ANALYSIS RAW RADIANCES DATUM EVENTS (2)              FLAG TABLE 033248          0            0  31  ".
Definition b9887 : text := " 033249 DATUM BLACK LIST EVENTS                                          FLAG TABLE 033249          0            0  31  ".
Definition b9888 : text := " 033252 MANUAL-AUTOMATIC QUALITY CONTROL                                 CODE TABLE 033252          0            0   4  ".
Definition b9889 : text := " 033254 WIND CORRELATION METHOD                                          FLAG TABLE 033254          0            0  20  ".
Definition b9890 : text := " 035000 FM AND REGIONAL CODE NUMBER                                      CODE TABLE 035000          0            0  10  ".
Definition b9891 : text := " 035001 TIME-FRAME FOR MONITORING                                        CODE TABLE 035001          0            0   3  ".
Definition b9892 : text := " 035011 NUMBER OF REPORTS ACTUALLY RECEIVED                              NUMERIC                    0            0  14  ".
Definition b9893 : text := " 035021 BULLETIN BEING MONITORED (TTAAII)                                CCITTIA5                   0            0  48  ".
Definition b9894 : text := " 035022 BULLETIN BEING MONITORED (YYGGGG)                                CCITTIA5                   0            0  48  ".
Definition b9895 : text := " 035023 BULLETIN BEING MONITORED (CCCC)                                  CCITTIA5                   0            0  32  ".
Definition b9896 : text := " 035024 BULLETIN BEING MONITORED (BBB)                                   CCITTIA5                   0            0  24  ".
Definition b9897 : text := " 035030 DISCREPANCIES IN THE AVAILABILITY OF EXPECTED DATA               CODE TABLE 035030          0            0   4  ".
Definition b9898 : text := " 035031 QUALIFIER ON MONITORING RESULTS                                  CODE TABLE 035031          0            0   7  ".
Definition b9899 : text := " 035032 CAUSE OF MISSING DATA                                            CODE TABLE 035032          0            0   4  ".
Definition b9900 : text := " 035033 OBSERVATION AND COLLECTION DEFICIENCIES                          CODE TABLE 035033          0            0   7  ".
Definition b9901 : text := " 035034 STATISTICAL TRENDS FOR AVAILABILITY OF DATA (DURING THE SURVEY P CODE TABLE 035034          0            0   3  ".
Definition b9902 : text := " 035035 REASON FOR TERMINATION                                           CODE TABLE 035035          0            0   5  ".
Definition b9903 : text := " 049193 SAR INVERSION QC FLAGS                                           FLAG TABLE 049193          0            0  15  ".
Definition b9904 : text := " 049194 ALTIMETER WAVE HEIGHT QC FLAFS                                   FLAG TABLE 049194          0            0  15  ".
Definition b9905 : text := " 062190 STATISTICS APPLICATION                                           CODE TABLE 062190          0            0   8  ".
Definition b9906 : text := " 062191 TYPE OF STATISTICS                                               CODE TABLE 062191          0            0   8  ".
Definition b9907 : text := " 063190 APPLICATION DERIVING SUBSTITUTE OR ALTERNATIVE VALUE             CODE TABLE 063190          0            0   8  ".
Definition b9908 : text := " 007003 GEOPOTENTIAL                                                     M2S-2                     -1         -400  17 M2 S-2                    1         6".
Definition b9909 : text := " 011044 MEAN WIND DIRECTION FOR SURFACE - 1500 M (5000 FEET) (DEGREE TRU DEG                        0            0   9 DEG                       0         3".
Definition b9910 : text := " 011054 MEAN WIND DIRECTION FOR 1500 M - 3000 M (DEGREE TRUE)            DEG                        0            0   9 DEG                       0         3".
Definition b9911 : text := " 011081 MODEL WIND DIRECTION AT 10M (DEGREE TRUE)                        DEG                        2            0  16 DEG                       2         5".
Definition b9912 : text := " 013155 INTENSITY OF PRECIPITATION (HIGH ACCURACY)                       KGM-2S-1                   5           -1  16 MM/H                      1         5".
Definition b9913 : text := " 024022 CONCENTRATION IN PRECIPITATION (OF NAMES ISOTOPE TYPE)           Bq/L                       2            0  32 Bq/L                      2        10".
Definition b9914 : text := " 040014 HIGH-FREQUENCY FLUCTUATIONS OF THE SEA SURFACE TOPOGRAPHY CORREC M                          4        -3000  13 M                         4         4".
Definition b9915 : text := " 002192 SAR AZIMUTH ANGLE                                                DEG                        0            0   9 ".
Definition b9916 : text := " 002197 SATELLITE CHANNEL CENTRE FREQUENCY                               HZ                        -8            0  26 ".
Definition b9917 : text := " 002198 SATELLITE CHANNEL BAND WIDTH                                     HZ                        -8            0  26 ".
Definition b9918 : text := " 002200 LATITUDINAL RESOLUTION                                           DEG                        5            0  25 ".
Definition b9919 : text := " 002201 LONGITUDINAL RESOLUTION                                          DEG                        5            0  25 ".
Definition b9920 : text := " 002205 LATITUDINAL RESOLUTION                                           DEG                        3            0   9 ".
Definition b9921 : text := " 002206 LONGITUDINAL RESOLUTION                                          DEG                        3            0   9 ".
Definition b9922 : text := " 002224 SPACECRAFT ROLL                                                  DEG                        2            0  16 ".
Definition b9923 : text := " 002225 SPACECRAFT PITCH                                                 DEG                        2            0  16 ".
Definition b9924 : text := " 002226 SPACECRAFT YAW                                                   DEG                        2            0  16 ".
Definition b9925 : text := " 005196 SCAN ANGLE                                                       DEG                        1        -1800  12 DEG                       1         4".
Definition b9926 : text := " 005232 DIRECTION (SPECTRAL)                                             DEG                        2            0  16 DEG                       2         5".
Definition b9927 : text := " 005233 NUMBER OF SCAN LINES                                             NUMERIC                    0            0   8 ".
Definition b9928 : text := " 006232 WAVENUMBER (SPECTRAL)                                            RAD/M                      5            0  13 ADS M-1                   5         4".
Definition b9929 : text := " 008201 COORDINATES SIGNIFICANCE                                         CODE TABLE 8201            0            0  15 ".
Definition b9930 : text := " 010196 SOLAR ZENITH ANGLE                                               DEG                        2        -9000  15 ".
Definition b9931 : text := " 011221 FORMAL UNCERTAINTY IN WIND DIRECTION                             DEG                        2            0  15 ".
Definition b9932 : text := " 012194 RADIANCE                                                         W M-2 SR-1 M               6            0  31 ".
Definition b9933 : text := " 012195 SPECTRAL RADIANCE                                                W M-2 SR-1 M              10            0  31 ".
Definition b9934 : text := " 012196 RADIANCE                                                         W M-2 SR-1                 3            0  16 ".
Definition b9935 : text := " 013194 TOTAL COLUMN WATER                                               KG M-2                     2            0  11 ".
Definition b9936 : text := " 013195 RAIN RATE                                                        KG M-2 H-1                 0            0   5 ".
Definition b9937 : text := " 013196 ANTECEDENT PRECIPITATION INDEX                                   KG M-2                     0            0   7 ".
Definition b9938 : text := " 013197 TOTAL COLUMN WATER VAPOUR                                        KG M-2                     1            0  10 ".
Definition b9939 : text := " 013203 1D VAR ESTIMATE OF RAIN RATE                                     KG M-2 H-1                 2            0  12 ".
Definition b9940 : text := " 013204 SSMI INDEPENDENT ESTIMATE OF RAIN RATE                           KG M-2 H-1                 2            0  12 ".
Definition b9941 : text := " 013205 CLOUD LIQUID WATER PATH                                          KG M-2                     4            0  14 ".
Definition b9942 : text := " 013206 TOTAL PRECIPITATION ICE CONTENT                                  KG M-2                     6            0  14 ".
Definition b9943 : text := " 013207 TOTAL CLOUD LIQUID WATER                                         KG M-2                     6            0  14 ".
Definition b9944 : text := " 013208 SURFACE RAIN RATE ( INSTANTANEOUS )                              KG M-2 S-1                 5            0  17 ".
Definition b9945 : text := " 013210 1D VAR CLOUD LIQUID WATER PATH RETRIEVED ERROR(S)                KG M-2                     4            0  14 ".
Definition b9946 : text := " 013211 TOTAL PRECIPITABLE WATER INDIPENDENT ESTIMATE OF ERROR(S)        KG M-2                     2            0  11 ".
Definition b9947 : text := " 013212 CLOUD LIQUID WATER PATH INDIPENDENT ESTIMATE OF ERROR(S)         KG M-2                     4            0  14 ".
Definition b9948 : text := " 013230 CONVECTIVE PRECIPITATION                                         KG M-2                     1           -1  14 ".
Definition b9949 : text := " 013231 LARGE SCALE PRECIPITATION                                        KG M-2                     1           -1  14 ".
Definition b9950 : text := " 013240 AIR DENSITY                                                      KG M-3                     3            0  10 ".
Definition b9951 : text := " 015202 INTEGRATED ELECTRON DENSITY                                      M-2                        3        13000  12 ".
Definition b9952 : text := " 021192 RADAR BACK SCATTER                                               DB                         2        -5000  13 ".
Definition b9953 : text := " 021212 OPEN LOOP CORRECTION (AGC)                                       DB                         3        -3000  14 ".
Definition b9954 : text := " 021222 DOPPLER SPECTRUM 0 TH MOMENT (AMPLITUDE)                         DB                         0            0   7 ".
Definition b9955 : text := " 021241 KP VARIANCE COEFFICIENT (ALPHA)                                  NUMERIC                    5            0  14 ".
Definition b9956 : text := " 021242 KP VARIANCE COEFFICIENT (BETHA)                                  NUMERIC                    6            0  16 ".
Definition b9957 : text := " 021243 KP VARIANCE COEFFICIENT (GAMMA)                                  NUMERIC                    6            0  16 ".
Definition b9958 : text := " 022193 MEAN WAVENUMBER                                                  /M                         5            0  15 ".
Definition b9959 : text := " 022194 PEAK WAVENUMBER                                                  /M                         5            0  15 ".
Definition b9960 : text := " 022195 MEAN WAVE PROPAGATION DIRECTION                                  DEG                        1            0  13 ".
Definition b9961 : text := " 022196 PEAK WAVE PROPAGATION DIRECTION                                  DEG                        1            0  13 ".
Definition b9962 : text := " 022197 DIRECTION SPREAD                                                 DEG                        1            0  13 ".
Definition b9963 : text := " 022198 VARIANCE SPECTRAL DENSITY                                        M2 RAD-1 S                 4            0  18 ".
Definition b9964 : text := " 022205 SPECTRAL DENSITY                                                 M2 RAD-1 S                 4            0  25 ".
Definition b9965 : text := " 025193 ATTENUATION CORRECTION ON SIGMA0                                 DB                         3            0  14 ".
Definition b9966 : text := " 025198 LOG (TEMP-RAD CENTRAL WAVE NUMBER)                               /M                         8            0  30 ".
Definition b9967 : text := " 025207 COMPASS AZIMUTH ANGLE                                            DEG                        2            0  16 ".
Definition b9968 : text := " 026193 YEAR                                                             A                          0            0  12 ".
Definition b9969 : text := " 026194 MONTH                                                            MON                        0            0   4 ".
Definition b9970 : text := " 026195 DAY                                                              D                          0            0   6 ".
Definition b9971 : text := " 026196 HOUR                                                             H                          0            0   5 ".
Definition b9972 : text := " 026197 MINUTE                                                           MIN                        0            0   6 ".
Definition b9973 : text := " 027193 SOLAR AZIMUTH                                                    DEG                        2            0  16 ".
Definition b9974 : text := " 033199 1D VAR TOTAL PRECIPITABLE WATER RETRIEVED ERROR(S)               KG M-2                     2            0  11 ".
Definition b9975 : text := " 040199 INTEGRATED N2O DENSITY                                           KG M-2                     6            0  16 ".
Definition b9976 : text := " 040200 INTEGRATED CO DENSITY                                            KG M-2                     7            0  16 ".
Definition b9977 : text := " 040201 INTEGRATED CH4 DENSITY                                           KG M-2                     6            0  16 ".
Definition b9978 : text := " 040202 INTEGRATED CO2 DENSITY                                           KG M-2                     3            0  16 ".
Definition b9979 : text := " 040211 GMI QUALITY FLAG                                                 FLAG TABLE 40211           0            0  15 ".
Definition b9980 : text := " 040213 SUN GLINT ANGLE                                                  DEG                        2       -18000  16 ".
Definition b9981 : text := " 005234 PROFILE NUMBER                                                   NUMERIC                    0            0  32 ".
Definition b9982 : text := " 005236 OBSERVATION IDENTIFIER                                           NUMERIC                    0            0  32 ".
Definition b9983 : text := " 005237 RECEIVER CHANNEL                                                 CODE TABLE 5237            0            0   2 ".
Definition b9984 : text := " 007200 HEIGHT (HIGH RESOLUTION)                                         M                          3    -10000000  26 ".
Definition b9985 : text := " 008201 COORDINATES SIGNIFICANCE                                         CODE TABLE 8201            0            0   4 ".
Definition b9986 : text := " 025192 CONFIDENCE FLAG                                                  CODE TABLE 25192           0            0   4 ".
Definition b9987 : text := " 040214 LIDAR L2B CLASSIFICATION TYPE                                    CODE TABLE 40214           0            0   4 ".
Definition b9988 : text := " 040215 SATELLITE RANGE                                                  M                          0       380000  18 ".
Definition b9989 : text := " 040216 HORIZONTAL OBSERVATION INTEGRATION LENGTH                        M                          0            0  26 ".
Definition b9990 : text := " 040217 HORIZONTAL LINE OF SIGHT WIND                                    M/S                        2       -32767  16 ".
Definition b9991 : text := " 040218 ERROR ESTIMATE OF HORIZONTAL LINE OF SIGHT WIND                  M/S                        2            0  15 ".
Definition b9992 : text := " 040219 BACKSCATTER RATIO                                                NUMERIC                    3          500  20 ".
Definition b9993 : text := " 040220 DERIVATIVE WIND TO PRESSURE                                      M S-1 PA-1                 3      -100000  18 ".
Definition b9994 : text := " 040221 DERIVATIVE WIND TO TEMPERATURE                                   M S-1 K-1                  3      -100000  18 ".
Definition b9995 : text := " 040222 DERIVATIVE WIND TO BACKSCATTER RATIO                             M/S                        3      -200000  19 ".
Definition b9996 : text := " 001003 WMO REGION NUMBER/GEOGRAPHICAL AREA                              CODETABLE                  0            0   3 CODE TABLE                0         1".
Definition b9997 : text := " 001007 SATELLITE IDENTIFIER                                             CODETABLE                  0            0  10 CODE TABLE                0         4".
Definition b9998 : text := " 001024 WIND SPEED SOURCE                                                CODETABLE                  0            0   5 CODE TABLE                0         2".
Definition b9999 : text := " 001028 AEROSOL OPTICAL DEPTH (AOD) SOURCE                               CODETABLE                  0            0   5 CODE TABLE                0         2".
Definition b10000 : text := " 001029 SSI SOURCE                                                       CODETABLE                  0            0   5 CODE TABLE                0         2".
Definition b10001 : text := " 001031 IDENTIFICATION OF ORIGINATING/GENERATING CENTRE                  CODETABLE                  0            0  16 CODE TABLE                0         5".
Definition b10002 : text := " 001032 GENERATING APPLICATION                                           CODETABLE                  0            0   8 CODE TABLE                0         3".
Definition b10003 : text := " 001033 IDENTIFICATION OF ORIGINATING/GENERATING CENTRE                  COMMONCODETABLEC-1         0            0   8 COMMON CODE TABLE C-1      0         3".
Definition b10004 : text := " 001034 IDENTIFICATION OF ORIGINATING/GENERATING SUB-CENTRE              COMMONCODETABLEC-12        0            0   8 COMMON CODE TABLE C-12      0         3".
Definition b10005 : text := " 001035 ORIGINATING CENTRE                                               COMMONCODETABLEC-11        0            0  16 COMMON CODE TABLE C-11      0         5".
Definition b10006 : text := " 001036 AGENCY IN CHARGE OF OPERATING THE OBSERVING PLATFORM             CODETABLE                  0            0  20 CODE TABLE                0         7".
Definition b10007 : text := " 001038 SOURCE OF SEA ICE FRACTION                                       CODETABLE                  0            0   5 CODE TABLE                0         2".
Definition b10008 : text := " 001052 PLATFORM TRANSMITTER ID                                          CODETABLE                  0            0   3 CODE TABLE                0         1".
Definition b10009 : text := " 001090 TECHNIQUE FOR MAKING UP INITIAL PERTURBATIONS                    CODETABLE                  0            0   8 CODE TABLE                0         3".
Definition b10010 : text := " 001092 TYPE OF ENSEMBLE FORECAST                                        CODETABLE                  0            0   8 CODE TABLE                0         3".
Definition b10011 : text := " 001098 TYPE OF PRODUCT                                                  CODETABLE                  0            0  12 CODE TABLE                0         4".
Definition b10012 : text := " 001101 STATE IDENTIFIER                                                 CODETABLE                  0            0  10 CODE TABLE                0         3".
Definition b10013 : text := " 002001 TYPE OF STATION                                                  CODETABLE                  0            0   2 CODE TABLE                0         1".
Definition b10014 : text := " 002003 TYPE OF MEASURING EQUIPMENT USED                                 CODETABLE                  0            0   4 CODE TABLE                0         2".
Definition b10015 : text := " 002004 TYPE OF INSTRUMENTATION FOR EVAPORATION MEASUREMENT              CODETABLE                  0            0   4 CODE TABLE                0         2".
Definition b10016 : text := " 002007 TYPE OF SENSOR FOR WATER LEVEL MEASURING INSTRUMENT              CODETABLE                  0            0   4 CODE TABLE                0         2".
Definition b10017 : text := " 002011 RADIOSONDE TYPE                                                  CODETABLE                  0            0   8 CODE TABLE                0         3".
Definition b10018 : text := " 002012 RADIOSONDE COMPUTATIONAL METHOD                                  CODETABLE                  0            0   4 CODE TABLE                0         2".
Definition b10019 : text := " 002013 SOLAR AND INFRARED RADIATION CORRECTION                          CODETABLE                  0            0   4 CODE TABLE                0         2".
Definition b10020 : text := " 002014 TRACKING TECHNIQUE/STATUS OF SYSTEM USED                         CODETABLE                  0            0   7 CODE TABLE                0         3".
Definition b10021 : text := " 002015 RADIOSONDE COMPLETENESS                                          CODETABLE                  0            0   4 CODE TABLE                0         2".
Definition b10022 : text := " 002019 SATELLITE INSTRUMENTS                                            CODETABLE                  0            0  11 CODE TABLE                0         4".
Definition b10023 : text := " 002020 SATELLITE CLASSIFICATION                                         CODETABLE                  0            0   9 CODE TABLE                0         3".
Definition b10024 : text := " 002023 SATELLITE-DERIVED WIND COMPUTATION METHOD                        CODETABLE                  0            0   4 CODE TABLE                0         2".
Definition b10025 : text := " 002024 INTEGRATED MEAN HUMIDITY COMPUTATIONAL METHOD                    CODETABLE                  0            0   4 CODE TABLE                0         2".
Definition b10026 : text := " 002030 METHOD OF CURRENT MEASUREMENT                                    CODETABLE                  0            0   3 CODE TABLE                0         1".
Definition b10027 : text := " 002031 DURATION AND TIME OF CURRENT MEASUREMENT                         CODETABLE                  0            0   5 CODE TABLE                0         2".
Definition b10028 : text := " 002032 INDICATOR FOR DIGITIZATION                                       CODETABLE                  0            0   2 CODE TABLE                0         1".
Definition b10029 : text := " 002033 METHOD OF SALINITY/DEPTH MEASUREMENT                             CODETABLE                  0            0   3 CODE TABLE                0         1".
Definition b10030 : text := " 002034 DROGUE TYPE                                                      CODETABLE                  0            0   5 CODE TABLE                0         2".
Definition b10031 : text := " 002036 BUOY TYPE                                                        CODETABLE                  0            0   2 CODE TABLE                0         1".
Definition b10032 : text := " 002037 METHOD OF TIDAL OBSERVATION                                      CODETABLE                  0            0   3 CODE TABLE                0         1".
Definition b10033 : text := " 002038 METHOD OF WATER TEMPERATURE AND/OR SALINITY MEASUREMENT          CODETABLE                  0            0   4 CODE TABLE                0         2".
Definition b10034 : text := " 002039 METHOD OF WET-BULB TEMPERATURE MEASUREMENT                       CODETABLE                  0            0   3 CODE TABLE                0         1".
Definition b10035 : text := " 002040 METHOD OF REMOVING VELOCITY AND MOTION OF PLATFORM FROM CURRENT  CODETABLE                  0            0   4 CODE TABLE                0         2".
Definition b10036 : text := " 002041 METHOD FOR ESTIMATING REPORTS RELATED TO SYNOPTIC FEATURES       CODETABLE                  0            0   6 CODE TABLE                0         2".
Definition b10037 : text := " 002042 INDICATOR FOR SEA SURFACE CURRENT SPEED                          CODETABLE                  0            0   2 CODE TABLE                0         1".
Definition b10038 : text := " 002044 INDICATOR FOR METHOD OF CALCULATING SPECTRAL WAVE DATA           CODETABLE                  0            0   4 CODE TABLE                0         2".
Definition b10039 : text := " 002045 INDICATOR FOR TYPE OF PLATFORM                                   CODETABLE                  0            0   4 CODE TABLE                0         2".
Definition b10040 : text := " 002046 WAVE MEASUREMENT INSTRUMENTATION                                 CODETABLE                  0            0   4 CODE TABLE                0         2".
Definition b10041 : text := " 002047 DEEP-OCEAN TSUNAMETER TYPE                                       CODETABLE                  0            0   7 CODE TABLE                0         2".
Definition b10042 : text := " 002048 SATELLITE SENSOR INDICATOR                                       CODETABLE                  0            0   4 CODE TABLE                0         2".
Definition b10043 : text := " 002051 INDICATOR TO SPECIFY OBSERVING METHOD FOR EXTREME TEMPERATURES   CODETABLE                  0            0   4 CODE TABLE                0         2".
Definition b10044 : text := " 002053 GOES-I/M BRIGHTNESS TEMPERATURE CHARACTERISTICS                  CODETABLE                  0            0   4 CODE TABLE                0         2".
Definition b10045 : text := " 002054 GOES-I/M SOUNDINGS PARAMETER CHARACTERISTICS                     CODETABLE                  0            0   4 CODE TABLE                0         2".
Definition b10046 : text := " 002055 GEOSTATIONARY SOUNDINGS STATISTICAL PARAMETERS                   CODETABLE                  0            0   4 CODE TABLE                0         2".
Definition b10047 : text := " 002056 GEOSTATIONARY SOUNDINGS ACCURACY STATISTICS                      CODETABLE                  0            0   4 CODE TABLE                0         2".
Definition b10048 : text := " 002057 ORIGIN OF FIRST-GUESS INFORMATION FOR GOES-I/M SOUNDINGS         CODETABLE                  0            0   4 CODE TABLE                0         2".
Definition b10049 : text := " 002058 VALID TIMES OF FIRST GUESS INFORMATION FOR GOES-I/M SOUNDINGS    CODETABLE                  0            0   4 CODE TABLE                0         2".
Definition b10050 : text := " 002059 ORIGIN OF ANALYSIS INFORMATION FOR GOES-I/M SOUNDINGS            CODETABLE                  0            0   4 CODE TABLE                0         2".
Definition b10051 : text := " 002060 ORIGIN OF SURFACE INFORMATION FOR GOES-I/M SOUNDINGS             CODETABLE                  0            0   4 CODE TABLE                0         2".
Definition b10052 : text := " 002061 AIRCRAFT NAVIGATIONAL SYSTEM                                     CODETABLE                  0            0   3 CODE TABLE                0         1".
Definition b10053 : text := " 002062 TYPE OF AIRCRAFT DATA RELAY SYSTEM                               CODETABLE                  0            0   4 CODE TABLE                0         2".
Definition b10054 : text := " 002064 AIRCRAFT ROLL ANGLE QUALITY                                      CODETABLE                  0            0   2 CODE TABLE                0         1".
Definition b10055 : text := " 002066 RADIOSONDE GROUND RECEIVING SYSTEM                               CODETABLE                  0            0   6 CODE TABLE                0         2".
Definition b10056 : text := " 002070 ORIGINAL SPECIFICATION OF LATITUDE/LONGITUDE                     CODETABLE                  0            0   4 CODE TABLE                0         2".
Definition b10057 : text := " 002080 BALLOON MANUFACTURER                                             CODETABLE                  0            0   6 CODE TABLE                0         2".
Definition b10058 : text := " 002081 TYPE OF BALLOON                                                  CODETABLE                  0            0   5 CODE TABLE                0         2".
Definition b10059 : text := " 002083 TYPE OF BALLOON SHELTER                                          CODETABLE                  0            0   4 CODE TABLE                0         2".
Definition b10060 : text := " 002084 TYPE OF GAS USED IN BALLOON                                      CODETABLE                  0            0   4 CODE TABLE                0         2".
Definition b10061 : text := " 002095 TYPE OF PRESSURE SENSOR                                          CODETABLE                  0            0   5 CODE TABLE                0         2".
Definition b10062 : text := " 002096 TYPE OF TEMPERATURE SENSOR                                       CODETABLE                  0            0   5 CODE TABLE                0         2".
Definition b10063 : text := " 002097 TYPE OF HUMIDITY SENSOR                                          CODETABLE                  0            0   5 CODE TABLE                0         2".
Definition b10064 : text := " 002098 TYPE OF WAVE SENSOR                                              CODETABLE                  0            0   4 CODE TABLE                0         2".
Definition b10065 : text := " 002099 POLARIZATION                                                     CODETABLE                  0            0   3 CODE TABLE                0         1".
Definition b10066 : text := " 002101 TYPE OF ANTENNA                                                  CODETABLE                  0            0   4 CODE TABLE                0         2".
Definition b10067 : text := " 002104 ANTENNA POLARIZATION                                             CODETABLE                  0            0   4 CODE TABLE                0         2".
Definition b10068 : text := " 002115 TYPE OF SURFACE OBSERVING EQUIPMENT                              CODETABLE                  0            0   5 CODE TABLE                0         2".
Definition b10069 : text := " 002119 INSTRUMENT OPERATIONS                                            CODETABLE                  0            0   3 CODE TABLE                0         1".
Definition b10070 : text := " 002137 RADAR DUAL PRF RATIO                                             CODETABLE                  0            0   4 CODE TABLE                0         2".
Definition b10071 : text := " 002138 ANTENNA ROTATION DIRECTION                                       CODETABLE                  0            0   2 CODE TABLE                0         1".
Definition b10072 : text := " 002143 OZONE INSTRUMENT TYPE                                            CODETABLE                  0            0   7 CODE TABLE                0         3".
Definition b10073 : text := " 002144 LIGHT SOURCE TYPE FOR BREWER SPECTROPHOTOMETER                   CODETABLE                  0            0   4 CODE TABLE                0         2".
Definition b10074 : text := " 002145 WAVELENGTH SETTING FOR DOBSON INSTRUMENTS                        CODETABLE                  0            0   4 CODE TABLE                0         2".
Definition b10075 : text := " 002146 SOURCE CONDITIONS FOR DOBSON INSTRUMENTS                         CODETABLE                  0            0   4 CODE TABLE                0         2".
Definition b10076 : text := " 002147 METHOD OF TRANSMISSION TO COLLECTION CENTRE                      CODETABLE                  0            0   7 CODE TABLE                0         2".
Definition b10077 : text := " 002148 DATA COLLECTION AND/OR LOCATION SYSTEM                           CODETABLE                  0            0   5 CODE TABLE                0         2".
Definition b10078 : text := " 002149 TYPE OF DATA BUOY                                                CODETABLE                  0            0   6 CODE TABLE                0         2".
Definition b10079 : text := " 002150 TOVS/ATOVS/AVHRR INSTRUMENTATION CHANNEL NUMBER                  CODETABLE                  0            0   6 CODE TABLE                0         2".
Definition b10080 : text := " 002151 RADIOMETER IDENTIFIER                                            CODETABLE                  0            0  11 CODE TABLE                0         4".
Definition b10081 : text := " 002160 WAVE LENGTH OF THE RADAR                                         CODETABLE                  0            0   4 CODE TABLE                0         2".
Definition b10082 : text := " 002163 HEIGHT ASSIGNMENT METHOD                                         CODETABLE                  0            0   4 CODE TABLE                0         2".
Definition b10083 : text := " 002164 TRACER CORRELATION METHOD                                        CODETABLE                  0            0   3 CODE TABLE                0         1".
Definition b10084 : text := " 002166 RADIANCE TYPE                                                    CODETABLE                  0            0   4 CODE TABLE                0         2".
Definition b10085 : text := " 002167 RADIANCE COMPUTATIONAL METHOD                                    CODETABLE                  0            0   4 CODE TABLE                0         2".
Definition b10086 : text := " 002169 ANEMOMETER TYPE                                                  CODETABLE                  0            0   4 CODE TABLE                0         2".
Definition b10087 : text := " 002171 INSTRUMENT SERIAL NUMBER FOR WATER TEMPERATURE PROFILE           CCITTIA5                   0            0  64 CCITT IA5                 0         8".
Definition b10088 : text := " 002172 PRODUCT TYPE FOR RETRIEVED ATMOSPHERIC GASES                     CODETABLE                  0            0   8 CODE TABLE                0         3".
Definition b10089 : text := " 002175 METHOD OF PRECIPITATION MEASUREMENT                              CODETABLE                  0            0   4 CODE TABLE                0         2".
Definition b10090 : text := " 002176 METHOD OF STATE OF GROUND MEASUREMENT                            CODETABLE                  0            0   4 CODE TABLE                0         2".
Definition b10091 : text := " 002177 METHOD OF SNOW DEPTH MEASUREMENT                                 CODETABLE                  0            0   4 CODE TABLE                0         2".
Definition b10092 : text := " 002178 METHOD OF LIQUID CONTENT MEASUREMENT OF PRECIPITATION            CODETABLE                  0            0   4 CODE TABLE                0         2".
Definition b10093 : text := " 002179 TYPE OF SKY CONDITION ALGORITHM                                  CODETABLE                  0            0   4 CODE TABLE                0         2".
Definition b10094 : text := " 002180 MAIN PRESENT WEATHER DETECTING SYSTEM                            CODETABLE                  0            0   4 CODE TABLE                0         2".
Definition b10095 : text := " 002182 VISIBILITY MEASUREMENT SYSTEM                                    CODETABLE                  0            0   4 CODE TABLE                0         2".
Definition b10096 : text := " 002183 CLOUD DETECTION SYSTEM                                           CODETABLE                  0            0   4 CODE TABLE                0         2".
Definition b10097 : text := " 002184 TYPE OF LIGHTNING DETECTION SENSOR                               CODETABLE                  0            0   4 CODE TABLE                0         2".
Definition b10098 : text := " 002185 METHOD OF EVAPORATION MEASUREMENT                                CODETABLE                  0            0   4 CODE TABLE                0         2".
Definition b10099 : text := " 002191 GEOPOTENTIAL HEIGHT CALCULATION                                  CODETABLE                  0            0   4 CODE TABLE                0         2".
Definition b10100 : text := " 004008 SECONDS WITHIN A MINUTE (HIGH ACCURACY)                          S                          7            0  30                                      ".
Definition b10101 : text := " 004080 AVERAGING PERIOD FOR FOLLOWING VALUE                             CODETABLE                  0            0   4 CODE TABLE                0         2".
Definition b10102 : text := " 008002 VERTICAL SIGNIFICANCE (SURFACE OBSERVATIONS)                     CODETABLE                  0            0   6 CODE TABLE                0         2".
Definition b10103 : text := " 008003 VERTICAL SIGNIFICANCE (SATELLITE OBSERVATIONS)                   CODETABLE                  0            0   6 CODE TABLE                0         2".
Definition b10104 : text := " 008004 PHASE OF AIRCRAFT FLIGHT                                         CODETABLE                  0            0   3 CODE TABLE                0         1".
Definition b10105 : text := " 008005 METEOROLOGICAL ATTRIBUTE SIGNIFICANCE                            CODETABLE                  0            0   4 CODE TABLE                0         2".
Definition b10106 : text := " 008007 DIMENSIONAL SIGNIFICANCE                                         CODETABLE                  0            0   4 CODE TABLE                0         2".
Definition b10107 : text := " 008009 DETAILED PHASE OF FLIGHT                                         CODETABLE                  0            0   4 CODE TABLE                0         2".
Definition b10108 : text := " 008010 SURFACE QUALIFIER (FOR TEMPERATURE DATA)                         CODETABLE                  0            0   5 CODE TABLE                0         2".
Definition b10109 : text := " 008011 METEOROLOGICAL FEATURE                                           CODETABLE                  0            0   6 CODE TABLE                0         2".
Definition b10110 : text := " 008012 LAND/SEA QUALIFIER                                               CODETABLE                  0            0   2 CODE TABLE                0         1".
Definition b10111 : text := " 008013 DAY/NIGHT QUALIFIER                                              CODETABLE                  0            0   2 CODE TABLE                0         1".
Definition b10112 : text := " 008014 QUALIFIER FOR RUNWAY VISUAL RANGE                                CODETABLE                  0            0   4 CODE TABLE                0         2".
Definition b10113 : text := " 008015 SIGNIFICANCE QUALIFIER FOR SENSOR                                CODETABLE                  0            0   3 CODE TABLE                0         1".
Definition b10114 : text := " 008016 CHANGE QUALIFIER OF A TREND-TYPE FORECAST OR AN AERODROME        CODETABLE                  0            0   3 CODE TABLE                0         1".
Definition b10115 : text := " 008017 QUALIFIER OF THE TIME WHEN THE FORECAST CHANGE IS EXPECTED       CODETABLE                  0            0   2 CODE TABLE                0         1".
Definition b10116 : text := " 008019 QUALIFIER FOR FOLLOWING CENTRE IDENTIFIER                        CODETABLE                  0            0   4 CODE TABLE                0         2".
Definition b10117 : text := " 008020 TOTAL NUMBER OF MISSING ENTITIES (WITH RESPECT TO ACCUMULATION ) NUMERIC                    0            0  16 NUMERIC                   0         5".
Definition b10118 : text := " 008021 TIME SIGNIFICANCE                                                CODETABLE                  0            0   5 CODE TABLE                0         2".
Definition b10119 : text := " 008023 FIRST-ORDER STATISTICS                                           CODETABLE                  0            0   6 CODE TABLE                0         2".
Definition b10120 : text := " 008024 DIFFERENCE STATISTICS                                            CODETABLE                  0            0   6 CODE TABLE                0         2".
Definition b10121 : text := " 008025 TIME DIFFERENCE QUALIFIER                                        CODETABLE                  0            0   4 CODE TABLE                0         2".
Definition b10122 : text := " 008026 MATRIX SIGNIFICANCE                                              CODETABLE                  0            0   6 CODE TABLE                0         2".
Definition b10123 : text := " 008027 MATRIX GEOMETRY                                                  CODETABLE                  0            0   6 CODE TABLE                0         2".
Definition b10124 : text := " 008029 SURFACE TYPE                                                     CODETABLE                  0            0   8 CODE TABLE                0         3".
Definition b10125 : text := " 008030 MANUAL ON CODES (VOLUME I.1, SECTION C) CODE TABLE               NUMERIC                    0            0  13 NUMERIC                   0         4".
Definition b10126 : text := " 008032 STATUS OF OPERATION                                              CODETABLE                  0            0   4 CODE TABLE                0         2".
Definition b10127 : text := " 008033 METHOD OF DERIVATION OF PERCENTAGE CONFIDENCE                    CODETABLE                  0            0   7 CODE TABLE                0         3".
Definition b10128 : text := " 008035 TYPE OF MONITORING EXERCISE                                      CODETABLE                  0            0   3 CODE TABLE                0         1".
Definition b10129 : text := " 008036 TYPE OF CENTRE OR STATION PERFORMING MONITORING                  CODETABLE                  0            0   3 CODE TABLE                0         1".
Definition b10130 : text := " 008039 TIME SIGNIFICANCE (AVIATION FORECAST)                            CODETABLE                  0            0   6 CODE TABLE                0         2".
Definition b10131 : text := " 008040 FLIGHT LEVEL SIGNIFICANCE                                        CODETABLE                  0            0   6 CODE TABLE                0         2".
Definition b10132 : text := " 008041 DATA SIGNIFICANCE                                                CODETABLE                  0            0   5 CODE TABLE                0         2".
Definition b10133 : text := " 008043 ATMOSPHERIC CHEMICAL OR PHYSICAL CONSTITUENT TYPE                CODETABLE                  0            0   8 CODE TABLE                0         3".
Definition b10134 : text := " 008045 PARTICULATE MATTER CHARACTERIZATION                              CODETABLE                  0            0   8 CODE TABLE                0         3".
Definition b10135 : text := " 008046 ATMOSPHERIC CHEMICAL OR PHYSICAL CONSTITUENT TYPE                CODETABLE                  0            0  16 COMMON CODE TABLE C-14      0         5".
Definition b10136 : text := " 008050 QUALIFIER FOR NUMBER OF MISSING VALUES IN CALCULATION OF STATIST CODETABLE                  0            0   4 CODE TABLE                0         2".
Definition b10137 : text := " 008051 QUALIFIER FOR NUMBER OF MISSING VALUES IN CALCULATION OF STATIST CODETABLE                  0            0   3 CODE TABLE                0         1".
Definition b10138 : text := " 008052 CONDITION FOR WHICH NUMBER OF DAYS OF OCCURRENCE FOLLOWS         CODETABLE                  0            0   5 CODE TABLE                0         2".
Definition b10139 : text := " 008053 DAY OF OCCURRENCE QUALIFIER                                      CODETABLE                  0            0   2 CODE TABLE                0         1".
Definition b10140 : text := " 008054 QUALIFIER FOR WIND SPEED OR WIND GUSTS                           CODETABLE                  0            0   3 CODE TABLE                0         1".
Definition b10141 : text := " 008060 SAMPLE SCANNING MODE SIGNIFICANCE                                CODETABLE                  0            0   4 CODE TABLE                0         2".
Definition b10142 : text := " 008065 SUN-GLINT INDICATOR                                              CODETABLE                  0            0   2 CODE TABLE                0         1".
Definition b10143 : text := " 008066 SEMI-TRANSPARENCY INDICATOR                                      CODETABLE                  0            0   2 CODE TABLE                0         1".
Definition b10144 : text := " 008070 TOVS/ATOVS PRODUCT QUALIFIER                                     CODETABLE                  0            0   4 CODE TABLE                0         2".
Definition b10145 : text := " 008072 PIXEL(S) TYPE                                                    CODETABLE                  0            0   3 CODE TABLE                0         1".
Definition b10146 : text := " 008074 ALTIMETER ECHO TYPE                                              CODETABLE                  0            0   2 CODE TABLE                0         1".
Definition b10147 : text := " 008075 ASCENDING/DESCENDING ORBIT QUALIFIER                             CODETABLE                  0            0   2 CODE TABLE                0         1".
Definition b10148 : text := " 008076 TYPE OF BAND                                                     CODETABLE                  0            0   6 CODE TABLE                0         2".
Definition b10149 : text := " 008077 RADIOMETER SENSED SURFACE TYPE                                   CODETABLE                  0            0   7 CODE TABLE                0         3".
Definition b10150 : text := " 008079 AVIATION PRODUCT STATUS                                          CODETABLE                  0            0   4 CODE TABLE                0         2".
Definition b10151 : text := " 008080 QUALIFIER FOR GTSPP QUALITY FLAG                                 CODETABLE                  0            0   6 CODE TABLE                0         2".
Definition b10152 : text := " 008081 TYPE OF EQUIPMENT                                                CODETABLE                  0            0   6 CODE TABLE                0         2".
Definition b10153 : text := " 008082 MODIFICATION OF SENSOR HEIGHT TO ANOTHER VALUE                   CODETABLE                  0            0   3 CODE TABLE                0         1".
Definition b10154 : text := " 008085 BEAM IDENTIFIER                                                  CODETABLE                  0            0   3 CODE TABLE                0         1".
Definition b10155 : text := " 008086 VERTICAL SIGNIFICANCE FOR NWP                                    FLAGTABLE                  0            0  12 FLAG TABLE                           ".
Definition b10156 : text := " 010063 CHARACTERISTIC OF PRESSURE TENDENCY                              CODETABLE                  0            0   4 CODE TABLE                0         2".
Definition b10157 : text := " 010064 SIGMET CRUISING LEVEL                                            CODETABLE                  0            0   3 CODE TABLE                0         1".
Definition b10158 : text := " 010220 PRESSURE (HIGH PRECISION)                                        PA                        -1            0  30".
Definition b10159 : text := " 011010 WIND DIRECTION ASSOCIATED WITH WIND SPEED WHICH FOLLOWS (DEGREE) DEG                        0            0   9 DEG                       0         3".
Definition b10160 : text := " 011017 EXTREME CLOCKWISE WIND DIRECTION OF A VARIABLE WIND DEGREE TRUE  DEG                        0            0   9 DEG                       0         3".
Definition b10161 : text := " 011030 EXTENDED DEGREE OF TURBULENCE                                    CODETABLE                  0            0   6 CODE TABLE                0         2".
Definition b10162 : text := " 011031 DEGREE OF TURBULENCE                                             CODETABLE                  0            0   4 CODE TABLE                0         2".
Definition b10163 : text := " 011037 TURBULENCE INDEX                                                 CODETABLE                  0            0   6 CODE TABLE                0         2".
Definition b10164 : text := " 011038 TIME OF OCCURRENCE OF PEAK EDDY DISSIPATION RATE                 CODETABLE                  0            0   5 CODE TABLE                0         2".
Definition b10165 : text := " 011039 EXTENDED TIME OF OCCURRENCE OF PEAK EDDY DISSIPATION RATE        CODETABLE                  0            0   6 CODE TABLE                0         2".
Definition b10166 : text := " 011072 TURBULENT VERTICAL BUOYANCY FLUX                                 KMS-1                      3         -128  11 K M S-1                   3         4".
Definition b10167 : text := " 012222 RETRIEVAL ERROR FOR TEMPERATURE                                  NUMERIC                    4     -1000000  21".
Definition b10168 : text := " 013038 SUPERADIABATIC INDICATOR                                         CODETABLE                  0            0   2 CODE TABLE                0         1".
Definition b10169 : text := " 013039 TERRAIN TYPE (ICE/SNOW)                                          CODETABLE                  0            0   3 CODE TABLE                0         1".
Definition b10170 : text := " 013040 SURFACE FLAG                                                     CODETABLE                  0            0   4 CODE TABLE                0         2".
Definition b10171 : text := " 013041 PASQUILL-GIFFORD STABILITY CATEGORY                              CODETABLE                  0            0   4 CODE TABLE                0         2".
Definition b10172 : text := " 013051 FREQUENCY GROUP, PRECIPITATION                                   CODETABLE                  0            0   4 CODE TABLE                0         2".
Definition b10173 : text := " 013056 CHARACTER AND INTENSITY OF PRECIPITATION                         CODETABLE                  0            0   4 CODE TABLE                0         2".
Definition b10174 : text := " 013057 TIME OF BEGINNING OR END OF PRECIPITATION                        CODETABLE                  0            0   4 CODE TABLE                0         2".
Definition b10175 : text := " 013220 MIXING RATIO (HIGH PRECISION)                                    KG/KG                      7            0  30".
Definition b10176 : text := " 013222 RETRIEVAL ERROR FOR WATER VAPOUR                                 NUMERIC                    4     -1000000  21".
Definition b10177 : text := " 014001 LONG-WAVE RADIATION, INTEGRATED OVER 24 HOURS                    JM-2                      -3       -65536  17 J M-2                    -3         5".
Definition b10178 : text := " 014002 LONG-WAVE RADIATION, INTEGRATED OVER PERIOD SPECIFIED            JM-2                      -3       -65536  17 J M-2                    -3         5".
Definition b10179 : text := " 014003 SHORT-WAVE RADIATION, INTEGRATED OVER 24 HOURS                   JM-2                      -3       -65536  17 J M-2                    -3         5".
Definition b10180 : text := " 014004 SHORT-WAVE RADIATION, INTEGRATED OVER PERIOD SPECIFIED           JM-2                      -3       -65536  17 J M-2                    -3         5".
Definition b10181 : text := " 014011 NET LONG-WAVE RADIATION, INTEGRATED OVER 24 HOURS                JM-2                      -3       -65536  17 J M-2                    -3         5".
Definition b10182 : text := " 014012 NET LONG-WAVE RADIATION, INTEGRATED OVER PERIOD SPECIFIED        JM-2                      -3       -65536  17 J M-2                    -3         5".
Definition b10183 : text := " 014013 NET SHORT-WAVE RADIATION, INTEGRATED OVER 24 HOURS               JM-2                      -3       -65536  17 J M-2                    -3         5".
Definition b10184 : text := " 014014 NET SHORT-WAVE RADIATION, INTEGRATED OVER PERIOD SPECIFIED       JM-2                      -3       -65536  17 J M-2                    -3         5".
Definition b10185 : text := " 014015 NET RADIATION, INTEGRATED OVER 24 HOURS                          JM-2                      -4       -16384  15 J M-2                    -4         5".
Definition b10186 : text := " 014016 NET RADIATION, INTEGRATED OVER PERIOD SPECIFIED                  JM-2                      -4       -16384  15 J M-2                    -4         5".
Definition b10187 : text := " 014020 GLOBAL SOLAR RADIATION, INTEGRATED OVER 24 HOURS                 JM-2                      -4            0  15 J M-2                    -4         5".
Definition b10188 : text := " 014021 GLOBAL SOLAR RADIATION, INTEGRATED OVER PERIOD SPECIFIED         JM-2                      -4            0  15 J M-2                    -4         5".
Definition b10189 : text := " 014022 DIFFUSE SOLAR RADIATION, INTEGRATED OVER 24 HOURS                JM-2                      -4            0  15 J M-2                    -4         5".
Definition b10190 : text := " 014023 DIFFUSE SOLAR RADIATION, INTEGRATED OVER PERIOD SPECIFIED        JM-2                      -4            0  15 J M-2                    -4         5".
Definition b10191 : text := " 014024 DIRECT SOLAR RADIATION, INTEGRATED OVER 24 HOURS                 JM-2                      -4            0  15 J M-2                    -4         5".
Definition b10192 : text := " 014025 DIRECT SOLAR RADIATION, INTEGRATED OVER PERIOD SPECIFIED         JM-2                      -4            0  15 J M-2                    -4         5".
Definition b10193 : text := " 014028 GLOBAL SOLAR RADIATION (HIGH ACCURACY), INTEGRATED OVER PERIOD   JM-2                      -2            0  20 J M-2                    -2         6".
Definition b10194 : text := " 014029 DIFFUSE SOLAR RADIATION (HIGH ACCURACY), INTEGRATED OVER PERIOD  JM-2                      -2            0  20 J M-2                    -2         6".
Definition b10195 : text := " 014030 DIRECT SOLAR RADIATION (HIGH ACCURACY), INTEGRATED OVER PERIOD   JM-2                      -2            0  20 J M-2                    -2         6".
Definition b10196 : text := " 014051 DIRECT SOLAR RADIATION INTEGRATED OVER LAST HOUR                 JM-2                      -3            0  14 J M-2                    -3         4".
Definition b10197 : text := " 014052 GLOBAL UPWARD SOLAR RADIATION, INTEGRATED OVER PERIOD SPECIFIED  JM-2                      -2     -1048574  20 J M-2                    -2         7".
Definition b10198 : text := " 014053 NET RADIATION (HIGH ACCURACY), INTEGRATED OVER PERIOD SPECIFIED  JM-2                      -2     -1048574  21 J M-2                    -2         7".
Definition b10199 : text := " 014054 PHOTOSYNTETICALLY ACTIVE RADIATION, INTEGRATED OVER PERIOD       JM-2                      -3            0  16 J M-2                    -3         5".
Definition b10200 : text := " 014057 SOIL HEAT FLUX                                                   JM-2                      -1        -1000  11 J M-2                    -1         4".
Definition b10201 : text := " 014072 GLOBAL UV IRRADIATION                                            JM-2                       0     -4000000  23 J M-2                     0         7".
Definition b10202 : text := " 014073 GLOBAL ERYTHEMAL IRRADIATION                                     JM-2                      -3          -32   6 J M-2                    -3         2".
Definition b10203 : text := " 015011 LOG 10 OF INTEGRATED ELECTRON DENSITY                            LOG(M-2)                   3        14000  13 LOG (M-2)                 3         4".
Definition b10204 : text := " 015025 TYPE OF POLLUTANT                                                CODETABLE                  0            0   4 CODE TABLE                0         2".
Definition b10205 : text := " 015045 Sulfur dioxide                                                   DU                         0            0  10 DU                        0         4".
Definition b10206 : text := " 015046 Volcano contamination index                                      NUMERIC                    0            0  10 NUMERIC                   0         4".
Definition b10207 : text := " 015049 Aerosol Angstrom wavelength exponent                             NUMERIC                    4            0  16 NUMERIC                   4         5".
Definition b10208 : text := " 015222 RETRIEVAL ERROR FOR OZONE                                        NUMERIC                    4     -1000000  21".
Definition b10209 : text := " 019001 TYPE OF SYNOPTIC FEATURE                                         CODETABLE                  0            0   6 CODE TABLE                0         2".
Definition b10210 : text := " 019008 VERTICAL EXTENT OF CIRCULATION                                   CODETABLE                  0            0   3 CODE TABLE                0         1".
Definition b10211 : text := " 019009 EFFECTIVE RADIUS WITH RESPECT TO WIND SPEEDS ABOVE THRESHOLD     M                         -3            0  12 M                        -3         4".
Definition b10212 : text := " 019010 METHOD FOR TRACKING THE CENTRE OF SYNOPTIC FEATURE               CODETABLE                  0            0   4 CODE TABLE                0         2".
Definition b10213 : text := " 019100 TIME INTERVAL TO CALCULATE THE MOVEMENT OF THE TROPICAL CYCLONE  CODETABLE                  0            0   4 CODE TABLE                0         2".
Definition b10214 : text := " 019101 ACCURACY OF THE POSITION OF THE CENTRE OF THE TROPICAL CYCLONE   CODETABLE                  0            0   4 CODE TABLE                0         2".
Definition b10215 : text := " 019102 SHAPE AND DEFINITION OF THE EYE OF THE TROPICAL CYCLONE          CODETABLE                  0            0   3 CODE TABLE                0         1".
Definition b10216 : text := " 019103 DIAMETER OF MAJOR AXIS OF THE EYE OF THE TROPICAL CYCLONE        CODETABLE                  0            0   4 CODE TABLE                0         2".
Definition b10217 : text := " 019104 CHANGE IN CHARACTER OF THE EYE DURING THE 30 MINUTES             CODETABLE                  0            0   4 CODE TABLE                0         2".
Definition b10218 : text := " 019105 DISTANCE BETWEEN THE END OF SPIRAL BAND AND THE CENTRE           CODETABLE                  0            0   4 CODE TABLE                0         2".
Definition b10219 : text := " 019107 TIME INTERVAL OVER WHICH THE MOVEMENT OF THE TROPICAL CYCLONE    CODETABLE                  0            0   4 CODE TABLE                0         2".
Definition b10220 : text := " 019108 ACCURACY OF GEOGRAPHICAL POSITION OF THE TROPICAL CYCLONE        CODETABLE                  0            0   3 CODE TABLE                0         1".
Definition b10221 : text := " 019109 MEAN DIAMETER OF THE OVERCAST CLOUD OF THE TROPICAL CYCLONE      CODETABLE                  0            0   4 CODE TABLE                0         2".
Definition b10222 : text := " 019110 APPARENT 24-HOUR CHANGE IN INTENSITY OF THE TROPICAL CYCLONE     CODETABLE                  0            0   4 CODE TABLE                0         2".
Definition b10223 : text := " 019113 CLOUD PATTERN TYPE OF THE DT-NUMBER                              CODETABLE                  0            0   4 CODE TABLE                0         2".
Definition b10224 : text := " 019117 CLOUD PICTURE TYPE OF THE PT-NUMBER                              CODETABLE                  0            0   3 CODE TABLE                0         1".
Definition b10225 : text := " 019119 TYPE OF THE FINAL T-NUMBER                                       CODETABLE                  0            0   3 CODE TABLE                0         1".
Definition b10226 : text := " 020003 PRESENT WEATHER                                                  CODETABLE                  0            0   9 CODE TABLE                0         3".
Definition b10227 : text := " 020004 PAST WEATHER (1)                                                 CODETABLE                  0            0   5 CODE TABLE                0         2".
Definition b10228 : text := " 020005 PAST WEATHER (2)                                                 CODETABLE                  0            0   5 CODE TABLE                0         2".
Definition b10229 : text := " 020006 FLIGHT RULES                                                     CODETABLE                  0            0   3 CODE TABLE                0         1".
Definition b10230 : text := " 020008 CLOUD DISTRIBUTION FOR AVIATION                                  CODETABLE                  0            0   5 CODE TABLE                0         2".
Definition b10231 : text := " 020009 GENERAL WEATHER INDICATOR (TAF/METAR)                            CODETABLE                  0            0   4 CODE TABLE                0         2".
Definition b10232 : text := " 020011 CLOUD AMOUNT                                                     CODETABLE                  0            0   4 CODE TABLE                0         2".
Definition b10233 : text := " 020012 CLOUD TYPE                                                       CODETABLE                  0            0   6 CODE TABLE                0         2".
Definition b10234 : text := " 020017 CLOUD TOP DESCRIPTION                                            CODETABLE                  0            0   4 CODE TABLE                0         2".
Definition b10235 : text := " 020018 TENDENCY OF RUNWAY VISUAL RANGE                                  CODETABLE                  0            0   2 CODE TABLE                0         1".
Definition b10236 : text := " 020022 CHARACTER OF PRECIPITATION                                       CODETABLE                  0            0   4 CODE TABLE                0         2".
Definition b10237 : text := " 020024 INTENSITY OF PHENOMENA                                           CODETABLE                  0            0   3 CODE TABLE                0         1".
Definition b10238 : text := " 020026 CHARACTER OF OBSCURATION                                         CODETABLE                  0            0   4 CODE TABLE                0         2".
Definition b10239 : text := " 020028 EXPECTED CHANGE IN INTENSITY                                     CODETABLE                  0            0   3 CODE TABLE                0         1".
Definition b10240 : text := " 020029 RAIN FLAG                                                        CODETABLE                  0            0   2 CODE TABLE                0         1".
Definition b10241 : text := " 020032 RATE OF ICE ACCRETION                                            CODETABLE                  0            0   3 CODE TABLE                0         1".
Definition b10242 : text := " 020034 SEA ICE CONCENTRATION                                            CODETABLE                  0            0   5 CODE TABLE                0         2".
Definition b10243 : text := " 020035 AMOUNT AND TYPE OF ICE                                           CODETABLE                  0            0   4 CODE TABLE                0         2".
Definition b10244 : text := " 020036 ICE SITUATION                                                    CODETABLE                  0            0   5 CODE TABLE                0         2".
Definition b10245 : text := " 020037 ICE DEVELOPMENT                                                  CODETABLE                  0            0   5 CODE TABLE                0         2".
Definition b10246 : text := " 020040 EVOLUTION OF DRIFT SNOW                                          CODETABLE                  0            0   4 CODE TABLE                0         2".
Definition b10247 : text := " 020041 AIRFRAME ICING                                                   CODETABLE                  0            0   4 CODE TABLE                0         2".
Definition b10248 : text := " 020042 AIRFRAME ICING PRESENT                                           CODETABLE                  0            0   2 CODE TABLE                0         1".
Definition b10249 : text := " 020045 SUPERCOOLED LARGE DROPLET (SLD) CONDITIONS                       CODETABLE                  0            0   2 CODE TABLE                0         1".
Definition b10250 : text := " 020048 EVOLUTION OF FEATURE                                             CODETABLE                  0            0   4 CODE TABLE                0         2".
Definition b10251 : text := " 020050 CLOUD INDEX                                                      CODETABLE                  0            0   8 CODE TABLE                0         3".
Definition b10252 : text := " 020054 TRUE DIRECTION FROM WHICH A PHENOMENON OR CLOUDS ARE MOVING      DEG                        0            0   9 DEG                       0         3".
Definition b10253 : text := " 020055 STATE OF SKY IN THE TROPICS                                      CODETABLE                  0            0   4 CODE TABLE                0         2".
Definition b10254 : text := " 020056 CLOUD PHASE                                                      CODETABLE                  0            0   3 CODE TABLE                0         1".
Definition b10255 : text := " 020062 STATE OF THE GROUND (WITH OR WITHOUT SNOW)                       CODETABLE                  0            0   5 CODE TABLE                0         2".
Definition b10256 : text := " 020063 SPECIAL PHENOMENA                                                CODETABLE                  0            0  10 CODE TABLE                0         4".
Definition b10257 : text := " 020071 ACCURACY OF FIX AND RATE OF ATMOSPHERICS                         CODETABLE                  0            0   4 CODE TABLE                0         2".
Definition b10258 : text := " 020080 CLOUD AMOUNT PERCENTAGE INTERVAL                                 CODETABLE                  0            0   3 CODE TABLE                0         1".
Definition b10259 : text := " 020085 GENERAL CONDITION OF RUNWAY                                      CODETABLE                  0            0   4 CODE TABLE                0         1".
Definition b10260 : text := " 020086 RUNWAY DEPOSITS                                                  CODETABLE                  0            0   4 CODE TABLE                0         1".
Definition b10261 : text := " 020087 RUNWAY CONTAMINATION                                             CODETABLE                  0            0   4 CODE TABLE                0         1".
Definition b10262 : text := " 020089 RUNWAY FRICTION COEFFICIENT                                      CODETABLE                  0            0   7 CODE TABLE                0         2".
Definition b10263 : text := " 020090 SPECIAL CLOUDS                                                   CODETABLE                  0            0   4 CODE TABLE                0         2".
Definition b10264 : text := " 020101 LOCUST (ACRIDIAN) NAME                                           CODETABLE                  0            0   4 CODE TABLE                0         2".
Definition b10265 : text := " 020102 LOCUST (MATURITY) COLOUR                                         CODETABLE                  0            0   4 CODE TABLE                0         2".
Definition b10266 : text := " 020103 STAGE OF DEVELOPMENT OF LOCUSTS                                  CODETABLE                  0            0   4 CODE TABLE                0         2".
Definition b10267 : text := " 020104 ORGANIZATION STATE OF SWARM OR BAND OF LOCUSTS                   CODETABLE                  0            0   4 CODE TABLE                0         2".
Definition b10268 : text := " 020105 SIZE OF SWARM OR BAND OF LOCUSTS AND DURATION OF PASSAGE         CODETABLE                  0            0   4 CODE TABLE                0         2".
Definition b10269 : text := " 020106 LOCUST POPULATION DENSITY                                        CODETABLE                  0            0   4 CODE TABLE                0         2".
Definition b10270 : text := " 020107 DIRECTION OF MOVEMENTS OF LOCUST SWARM                           CODETABLE                  0            0   4 CODE TABLE                0         2".
Definition b10271 : text := " 020108 EXTENT OF VEGETATION                                             CODETABLE                  0            0   4 CODE TABLE                0         2".
Definition b10272 : text := " 020113 Z-AXIS  ERROR ELLIPSE COMPONENT                                  M                         -1            0  17 M                        -1         6".
Definition b10273 : text := " 020119 LIGHTNING DISCHARGE POLARITY                                     CODETABLE                  0            0   2 CODE TABLE                0         1".
Definition b10274 : text := " 020124 LIGHTNING STROKE OR FLASH                                        CODETABLE                  0            0   2 CODE TABLE                0         1".
Definition b10275 : text := " 020136 SUPPLEMENTARY CLOUD TYPE                                         CODETABLE                  0            0   9 CODE TABLE                0         3".
Definition b10276 : text := " 020137 EVOLUTION OF CLOUDS                                              CODETABLE                  0            0   4 CODE TABLE                0         2".
Definition b10277 : text := " 021076 REPRESENTATION OF INTENSITIES                                    CODETABLE                  0            0   3 CODE TABLE                0         1".
Definition b10278 : text := " 021092 RASS SIGNAL DOPPLER SPECTRUM 0TH MOMENT, REFERRING TO RASS SIG   DB                         0         -100   8 DB                        0         3".
Definition b10279 : text := " 021119 WIND SCATTEROMETER GEOPHYSICAL MODEL FUNCTION                    CODETABLE                  0            0   6 CODE TABLE                0         2".
Definition b10280 : text := " 021128 NUMBER OF VALID POINTS PER SECOND USED TO DERIVE PREVIOUS PARAMS NUMERIC                    0            0   8 NUMERIC                   0         3".
Definition b10281 : text := " 021150 BEAM CO-LOCATION                                                 CODETABLE                  0            0   2 CODE TABLE                0         1".
Definition b10282 : text := " 021158 ASCAT KP QUALITY ESTIMATE                                        CODETABLE                  0            0   2 CODE TABLE                0         1".
Definition b10283 : text := " 021159 ASCAT SIGMA-0 USABILITY                                          CODETABLE                  0            0   2 CODE TABLE                0         1".
Definition b10284 : text := " 021169 ICE PRESENCE INDICATOR                                           CODETABLE                  0            0   2 CODE TABLE                0         1".
Definition b10285 : text := " 022056 DIRECTION OF PROFILE                                             CODETABLE                  0            0   2 CODE TABLE                0         1".
Definition b10286 : text := " 022060 LAGRANGIAN DRIFTER DROGUE STATUS                                 CODETABLE                  0            0   3 CODE TABLE                0         1".
Definition b10287 : text := " 022061 STATE OF THE SEA                                                 CODETABLE                  0            0   4 CODE TABLE                0         2".
Definition b10288 : text := " 022067 INSTRUMENT TYPE FOR WATER TEMPERATURE PROFILE MEASUREMENT        CODETABLE                  0            0  10 CODE TABLE                0         4".
Definition b10289 : text := " 022068 WATER TEMPERATURE PROFILE RECORDER TYPES                         CODETABLE                  0            0   7 CODE TABLE                0         3".
Definition b10290 : text := " 022069 SPECTRAL WAVE DENSITY                                            M2HZ-1                     3            0  22 M2 HZ-1                   3         7".
Definition b10291 : text := " 022099 MEAN DIRECTION AT LOW WAVE NUMBERS (WAVELENGTH > 731 M) (TRUE)   DEG                        0            0   9 DEG                       0         3".
Definition b10292 : text := " 022120 TIDE STATION AUTOMATED WATER LEVEL CHECK                         CODETABLE                  0            0   5 CODE TABLE                0         2".
Definition b10293 : text := " 022121 TIDE STATION MANUAL WATER LEVEL CHECK                            CODETABLE                  0            0   5 CODE TABLE                0         2".
Definition b10294 : text := " 022122 TIDE STATION AUTOMATED METEOROLOGICAL DATA CHECK                 CODETABLE                  0            0   5 CODE TABLE                0         2".
Definition b10295 : text := " 022123 TIDE STATION MANUAL METEOROLOGICAL DATA CHECK                    CODETABLE                  0            0   5 CODE TABLE                0         2".
Definition b10296 : text := " 022178 XBT/XCTD LAUNCHER TYPE                                           CODETABLE                  0            0   8 CODE TABLE                0         3".
Definition b10297 : text := " 023001 ACCIDENT EARLY NOTIFICATION - ARTICLE APPLICABLE                 CODETABLE                  0            0   3 CODE TABLE                0         1".
Definition b10298 : text := " 023002 ACTIVITY OR FACILITY INVOLVED IN INCIDENT                        CODETABLE                  0            0   5 CODE TABLE                0         2".
Definition b10299 : text := " 023003 TYPE OF RELEASE                                                  CODETABLE                  0            0   3 CODE TABLE                0         1".
Definition b10300 : text := " 023004 COUNTERMEASURES TAKEN NEAR BORDER                                CODETABLE                  0            0   3 CODE TABLE                0         1".
Definition b10301 : text := " 023005 CAUSE OF INCIDENT                                                CODETABLE                  0            0   2 CODE TABLE                0         1".
Definition b10302 : text := " 023006 INCIDENT SITUATION                                               CODETABLE                  0            0   3 CODE TABLE                0         1".
Definition b10303 : text := " 023007 CHARACTERISTICS OF RELEASE                                       CODETABLE                  0            0   3 CODE TABLE                0         1".
Definition b10304 : text := " 023008 STATE OF CURRENT RELEASE                                         CODETABLE                  0            0   2 CODE TABLE                0         1".
Definition b10305 : text := " 023009 STATE OF EXPECTED RELEASE                                        CODETABLE                  0            0   2 CODE TABLE                0         1".
Definition b10306 : text := " 023016 POSSIBILITY OF SIGNIFICANT CHEMICAL TOXIC HEALTH EFFECT          CODETABLE                  0            0   2 CODE TABLE                0         1".
Definition b10307 : text := " 023018 RELEASE BEHAVIOUR OVER TIME                                      CODETABLE                  0            0   3 CODE TABLE                0         1".
Definition b10308 : text := " 023031 POSSIBILITY THAT PLUME WILL ENCOUNTER PRECIPITATION              CODETABLE                  0            0   2 CODE TABLE                0         1".
Definition b10309 : text := " 023032 PLUME WILL ENCOUNTER CHANGE IN WIND DIRECTION AND/OR SPEED FLAG  CODETABLE                  0            0   2 CODE TABLE                0         1".
Definition b10310 : text := " 024001 ESTIMATE OF AMOUNT OF RADIOACTIVITY RELEASED UP TO SPECIFIC TIME BQ                       -11            0  28 BQ                      -11         9".
Definition b10311 : text := " 024003 COMPOSITION OF RELEASE                                           CODETABLE                  0            0   5 CODE TABLE                0         2".
Definition b10312 : text := " 024013 GAMMA DOSE IN AIR ALONG THE MAIN TRANSPORT PATH                  MSV                        2            0  32 MSV                       2        10".
Definition b10313 : text := " 025004 ECHO PROCESSING                                                  CODETABLE                  0            0   2 CODE TABLE                0         1".
Definition b10314 : text := " 025005 ECHO INTEGRATION                                                 CODETABLE                  0            0   2 CODE TABLE                0         1".
Definition b10315 : text := " 025006 Z TO R CONVERSION                                                CODETABLE                  0            0   3 CODE TABLE                0         1".
Definition b10316 : text := " 025010 CLUTTER TREATMENT                                                CODETABLE                  0            0   4 CODE TABLE                0         2".
Definition b10317 : text := " 025011 GROUND OCCULTATION CORRECTION (SCREENING)                        CODETABLE                  0            0   2 CODE TABLE                0         1".
Definition b10318 : text := " 025012 RANGE ATTENUATION CORRECTION                                     CODETABLE                  0            0   2 CODE TABLE                0         1".
Definition b10319 : text := " 025020 MEAN SPEED ESTIMATION                                            CODETABLE                  0            0   2 CODE TABLE                0         1".
Definition b10320 : text := " 025024 GHRSST DATA QUALITY                                              CODETABLE                  0            0   4 CODE TABLE                0         2".
Definition b10321 : text := " 025030 RUNNING MEAN SEA-SURFACE TEMPERATURE USAGE                       CODETABLE                  0            0   2 CODE TABLE                0         1".
Definition b10322 : text := " 025031 NWP-GENERATED VERTICAL PROFILE THINNING METHOD                   CODETABLE                  0            0   3 CODE TABLE                           ".
Definition b10323 : text := " 025032 WIND PROFILER MODE INFORMATION                                   CODETABLE                  0            0   2 CODE TABLE                0         1".
Definition b10324 : text := " 025033 WIND PROFILER SUBMODE INFORMATION                                CODETABLE                  0            0   2 CODE TABLE                0         1".
Definition b10325 : text := " 025035 DECISION METHOD FOR POLARITY                                     CODETABLE                  0            0   3 CODE TABLE                0         1".
Definition b10326 : text := " 025036 ATMOSPHERICS LOCATION METHOD                                     CODETABLE                  0            0   4 CODE TABLE                0         2".
Definition b10327 : text := " 025040 CO2 WIND PRODUCT DERIVATION                                      CODETABLE                  0            0   4 CODE TABLE                0         2".
Definition b10328 : text := " 025041 MOVING PLATFORM DIRECTION REPORTING METHOD                       CODETABLE                  0            0   2 CODE TABLE                0         1".
Definition b10329 : text := " 025042 MOVING PLATFORM SPEED REPORTING METHOD                           CODETABLE                  0            0   2 CODE TABLE                0         1".
Definition b10330 : text := " 025063 CENTRAL PROCESSOR OR SYSTEM IDENTIFIER                           CODETABLE                  0            0   8 CODE TABLE                0         3".
Definition b10331 : text := " 025086 DEPTH CORRECTION INDICATOR                                       CODETABLE                  0            0   2 CODE TABLE                0         1".
Definition b10332 : text := " 025090 ORBIT STATE FLAG                                                 CODETABLE                  0            0   4 CODE TABLE                0         2".
Definition b10333 : text := " 025097 THREE-DIMENSIONAL ERROR ESTIMATE OF THE NAVIGATOR ORBIT          CODETABLE                  0            0   4 CODE TABLE                0         2".
Definition b10334 : text := " 025120 RA2-L2-PROCESSING FLAG                                           CODETABLE                  0            0   2 CODE TABLE                0         1".
Definition b10335 : text := " 025122 HARDWARE CONFIGURATION FOR RF                                    CODETABLE                  0            0   2 CODE TABLE                0         1".
Definition b10336 : text := " 025123 HARDWARE CONFIGURATION FOR HPA                                   CODETABLE                  0            0   2 CODE TABLE                0         1".
Definition b10337 : text := " 025124 MWR-L2-PROCESSING FLAG                                           CODETABLE                  0            0   2 CODE TABLE                0         1".
Definition b10338 : text := " 025150 METHOD OF TROPICAL CYCLONE INTENSITY ANALYSIS USING SAT DATA     CODETABLE                  0            0   4 CODE TABLE                0         2".
Definition b10339 : text := " 025153 LIMB                                                             CODETABLE                  0            0   2 CODE TABLE                0         1".
Definition b10340 : text := " 027031 IN DIRECTION OF 0 DEGREES LONGITUDE, DISTANCE FROM EARTH CENTRE  M                          2  -1073741824  31 M                         2        10".
Definition b10341 : text := " 029001 PROJECTION TYPE                                                  CODETABLE                  0            0   3 CODE TABLE                0         1".
Definition b10342 : text := " 029002 COORDINATE GRID TYPE                                             CODETABLE                  0            0   3 CODE TABLE                0         1".
Definition b10343 : text := " 030031 PICTURE TYPE                                                     CODETABLE                  0            0   4 CODE TABLE                0         2".
Definition b10344 : text := " 031000 SHORT DELAYED DESCRIPTOR REPLICATION FACTOR                      NUMERIC                    0            0   1                                      ".
Definition b10345 : text := " 031001 DELAYED DESCRIPTOR REPLICATION FACTOR                            NUMERIC                    0            0   8                                      ".
Definition b10346 : text := " 031002 EXTENDED DELAYED DESCRIPTOR REPLICATION FACTOR                   NUMERIC                    0            0  16                                      ".
Definition b10347 : text := " 031011 DELAYED DESCRIPTOR AND DATA REPETITION FACTOR                    NUMERIC                    0            0   8                                      ".
Definition b10348 : text := " 031012 EXTENDED DELAYED DESCRIPTOR AND DATA REPETITION FACTOR           NUMERIC                    0            0  16                                      ".
Definition b10349 : text := " 031021 ASSOCIATED FIELD SIGNIFICANCE                                    CODETABLE                  0            0   6                                      ".
Definition b10350 : text := " 031031 DATA PRESENT INDICATOR                                           FLAGTABLE                  0            0   1                                      ".
Definition b10351 : text := " 033002 QUALITY INFORMATION                                              CODETABLE                  0            0   2 CODE TABLE                0         1".
Definition b10352 : text := " 033003 QUALITY INFORMATION                                              CODETABLE                  0            0   3 CODE TABLE                0         1".
Definition b10353 : text := " 033006 INTERNAL MEASUREMENT STATUS INFORMATION (AWS)                    CODETABLE                  0            0   3 CODE TABLE                0         1".
Definition b10354 : text := " 033015 DATA QUALITY CHECK INDICATOR                                     CODETABLE                  0            0   6 CODE TABLE                0         2".
Definition b10355 : text := " 033020 QUALITY CONTROL INDICATION OF FOLLOWING VALUE                    CODETABLE                  0            0   3 CODE TABLE                0         1".
Definition b10356 : text := " 033021 QUALITY OF FOLLOWING VALUE                                       CODETABLE                  0            0   2 CODE TABLE                0         1".
Definition b10357 : text := " 033022 QUALITY OF BUOY SATELLITE TRANSMISSION                           CODETABLE                  0            0   2 CODE TABLE                0         1".
Definition b10358 : text := " 033023 QUALITY OF BUOY LOCATION                                         CODETABLE                  0            0   2 CODE TABLE                0         1".
Definition b10359 : text := " 033024 STATION ELEVATION QUALITY MARK (FOR MOBILE STATIONS)             CODETABLE                  0            0   4 CODE TABLE                0         2".
Definition b10360 : text := " 033025 ACARS INTERPOLATED VALUES INDICATOR                              CODETABLE                  0            0   3 CODE TABLE                0         1".
Definition b10361 : text := " 033026 MOISTURE QUALITY                                                 CODETABLE                  0            0   6 CODE TABLE                0         2".
Definition b10362 : text := " 033027 LOCATION QUALITY CLASS (RANGE OF RADIUS OF 66 % CONFIDENCE)      CODETABLE                  0            0   3 CODE TABLE                0         1".
Definition b10363 : text := " 033028 SNAPSHOT OVERALL QUALITY                                         CODETABLE                  0            0   3 CODE TABLE                0         1".
Definition b10364 : text := " 033035 MANUAL/AUTOMATIC QUALITY CONTROL                                 CODETABLE                  0            0   4 CODE TABLE                0         2".
Definition b10365 : text := " 033041 ATTRIBUTE OF FOLLOWING VALUE                                     CODETABLE                  0            0   2 CODE TABLE                0         1".
Definition b10366 : text := " 033042 TYPE OF LIMIT REPRESENTED BY FOLLOWING VALUE                     CODETABLE                  0            0   3 CODE TABLE                0         1".
Definition b10367 : text := " 033046 CONDITIONAL PROBABILITY OF FOLLOWING EVENT WITH RESPECT EVENT    %                          0            0   7 %                         0         3".
Definition b10368 : text := " 033048 CONFIDENCE MEASURE OF SAR INVERSION                              CODETABLE                  0            0   2 CODE TABLE                0         1".
Definition b10369 : text := " 033049 CONFIDENCE MEASURE OF WIND RETRIEVAL                             CODETABLE                  0            0   2 CODE TABLE                0         1".
Definition b10370 : text := " 033050 GLOBAL GTSPP QUALITY FLAG                                        CODETABLE                  0            0   4 CODE TABLE                0         2".
Definition b10371 : text := " 033060 GQISFLAGQUAL - INDIVIDUAL IASI-SYSTEM QUALITY FLAG               CODETABLE                  0            0   2 CODE TABLE                0         1".
Definition b10372 : text := " 033065 GQISSYSTECSONDQUAL - OUTPUT OF SYSTEM TEC QUALITY FUNCTION       NUMERIC                    0            0  24 NUMERIC                   0         8".
Definition b10373 : text := " 033070 TOTAL OZONE QUALITY                                              CODETABLE                  0            0   4 CODE TABLE                0         2".
Definition b10374 : text := " 033071 PROFILE OZONE QUALITY                                            CODETABLE                  0            0   4 CODE TABLE                0         2".
Definition b10375 : text := " 033072 OZONE ERROR                                                      CODETABLE                  0            0   5 CODE TABLE                0         2".
Definition b10376 : text := " 033078 GEOLOCATION QUALITY                                              CODETABLE                  0            0   4 CODE TABLE                0         2".
Definition b10377 : text := " 033084 Pixel level quality flags                                        FLAGTABLE                  0            0  16 FLAG TABLE                0         6".
Definition b10378 : text := " 033085 Aerosol optical thickness quality flags                          FLAGTABLE                  0            0  18 FLAG TABLE                0         6".
Definition b10379 : text := " 033086 Quality of pixel level retrieval                                 FLAGTABLE                  0            0   3 FLAG TABLE                0         1".
Definition b10380 : text := " 033087 Extent of satellite within South Atlantic anomaly                FLAGTABLE                  0            0   4 FLAG TABLE                0         1".
Definition b10381 : text := " 033210 SCAN LINE QUALITY FLAG FOR SAPHIR/MADRAS                         FLAGTABLE                  0            0  10 FLAG TABLE                0         4".
Definition b10382 : text := " 033211 PAYLOAD MODE FOR SAPHIR                                          CODETABLE                  0            0   3 CODE TABLE                0         1                         ".
Definition b10383 : text := " 033212 PAYLOAD MODE FOR MADRAS                                          CODETABLE                  0            0   3 CODE TABLE                0         1                         ".
Definition b10384 : text := " 033213 SATELLITE MODE FOR SAPHIR/MADRAS                                 CODETABLE                  0            0   4 CODE TABLE                0         2                         ".
Definition b10385 : text := " 033214 CHANNEL QUALITY FLAG FOR SAPHIR/MADRAS                           FLAGTABLE                  0            0  11 FLAG TABLE                0         4".
Definition b10386 : text := " 033215 CALIBRATION FLAGS FOR SAPHIR/MADRAS                              CODETABLE                  0            0   3 CODE TABLE                0         1".
Definition b10387 : text := " 035000 FM AND REGIONAL CODE NUMBER                                      CODETABLE                  0            0  10 CODE TABLE                0         3".
Definition b10388 : text := " 035001 TIME-FRAME FOR MONITORING                                        CODETABLE                  0            0   3 CODE TABLE                0         1".
Definition b10389 : text := " 035030 DISCREPANCIES IN THE AVAILABILITY OF EXPECTED DATA               CODETABLE                  0            0   4 CODE TABLE                0         1".
Definition b10390 : text := " 035031 QUALIFIER ON MONITORING RESULTS                                  CODETABLE                  0            0   7 CODE TABLE                0         2".
Definition b10391 : text := " 035032 CAUSE OF MISSING DATA                                            CODETABLE                  0            0   4 CODE TABLE                0         1".
Definition b10392 : text := " 035033 OBSERVATION AND COLLECTION DEFICIENCIES                          CODETABLE                  0            0   7 CODE TABLE                0         2".
Definition b10393 : text := " 035034 STATISTICAL TRENDS FOR AVAILABILITY OF DATA (DURING SURVEY)      CODETABLE                  0            0   3 CODE TABLE                0         1".
Definition b10394 : text := " 035035 REASON FOR TERMINATION                                           CODETABLE                  0            0   5 CODE TABLE                0         2".
Definition b10395 : text := " 040013 RADIOMETER BRIGHTNESS TEMPERATURE INTERPRETATION FLAG            CODETABLE                  0            0   3 CODE TABLE                0         1".
Definition b10396 : text := " 040014 HIGH-FREQUENCY FLUCTUATIONS OF THE SEA-SURFACE TOPOGRAPHY CORR   M                          4        -3000  13 M                         4         4".
Definition b10397 : text := " 040021 FRACTION OF WEIGHTED AVHRR PIXEL IN IASI FOV WITH SNOW/ICE       %                          0            0   7 %                         0         3".
Definition b10398 : text := " 040024 METEOROLOGICAL MAP AVAILABILITY                                  CODETABLE                  0            0   3 CODE TABLE                0         1".
Definition b10399 : text := " 040025 INTERPOLATION FLAG FOR MEAN DIURNAL TIDE                         CODETABLE                  0            0   2 CODE TABLE                0         1".
Definition b10400 : text := " 040192 CLOUD FORMATION AND HEIGHT ASSIGNMENT                            FLAG TABLE  40192          0            0  16".
Definition b10401 : text := " 040193 INSTUMENT DETECTING CLOUDS                                       FLAG TABLE  40193          0            0  16".
Definition b10402 : text := " 040194 VALIDATION FLAG FOR IASI LEVEL 1 PRODUCT                         FLAG TABLE  40194          0            0  16".
Definition b10403 : text := " 040195 QUALITY AND COMPLETENESS OF RETRIEVAL                            CODE TABLE  40195          0            0   4".
Definition b10404 : text := " 040196 RETRIEVAL CHOICE INDICATOR                                       FLAG TABLE  40196          0            0   8".
Definition b10405 : text := " 040197 SATELLITE MANOEUVRE INDICATOR                                    CODE TABLE  40197          0            0   3".
Definition b10406 : text := " 040198 SELECTION OF BACKGROUND STATE                                    CODE TABLE  40198          0            0   3".
Definition b10407 : text := " 040220 QUALITY INDICATOR FOR ATMOSPHERIC TEMPERATURE                    NUMERIC                    1            0   8".
Definition b10408 : text := " 040221 QUALITY INDICATOR FOR ATMOSPHERIC WATER_VAPOUR                   NUMERIC                    1            0   8".
Definition b10409 : text := " 040222 QUALITY INDICATOR FOR ATMOSPHERIC OZONE                          NUMERIC                    1            0   8".
Definition b10410 : text := " 040223 QUALITY INDICATOR FOR SURFACE TEMPERATURE                        NUMERIC                    1            0   8".
Definition b10411 : text := " 040230 CLOUD FORMATION AND HEIGHT ASSIGNMENT NEW                        FLAG TABLE  40230          0            0   5".
Definition b10412 : text := " 040231 CLOUDINESS SUMMARY                                               CODE TABLE  40231          0            0   3 ".
Definition b10413 : text := " 040232 NEW VALIDATION FLAG FOR IASI LEVEL 1 PRODUCT                     CODE TABLE  40232          0            0   3".
Definition b10414 : text := " 040233 VALIDATION FLAG FOR AMSU-B LEVEL 1 PRODUCT                       CODE TABLE  40233          0            0   3".
Definition b10415 : text := " 040234 CLOUD TESTS EXECUTED AND RESULTS                                 FLAG TABLE  40234          0            0  16".
Definition b10416 : text := " 040235 RETRIEVAL INITIALISATION                                         FLAG TABLE  40235          0            0   8".
Definition b10417 : text := " 040236 CONVERGENCE OF THE ITERATIVE RETRIEVAL                           CODE TABLE  40236          0            0   3".
Definition b10418 : text := " 040237 VALIDATION FLAG OF MHS  LEVEL 1 DATA FLOW                        CODE TABLE  40237          0            0   3".
Definition b10419 : text := " 040238 VALIDATION FLAG OF NWP FORECAST                                  CODE TABLE  40238          0            0   3".
Definition b10420 : text := " 040239 INDICATION OF SUPER-ADIABATIC AND SUPER-SATURATION IN FINAL RET  FLAG TABLE  40239          0            0   8".
Definition b10421 : text := " 040240 NUMBER OF ITERATION USED FOR RETRIEVAL                           NUMERIC     40240          0            0   8".
Definition b10422 : text := " 040242 GENERAL RETRIEVAL QUALITY FLAG                                   CODE TABLE  40242          0            0   3".
Definition b10423 : text := " 040243 RETRIEVAL FLAGS                                                  FLAG TABLE  40243          0            0  31 ".
Definition b10424 : text := " 040244 NUMBER OF VECTORS DESCRIBING THE CHAR. MATRICES                  NUMERIC                    0            0   8".
Definition b10425 : text := " 040245 NUMBER OF LAYERS ACTUALLY RETRIEVED                              NUMERIC                    0            0   8".
Definition b10426 : text := " 040246 NUMBER OF CO PROFILES RETRIEVED IN SCANLINE                      NUMERIC                    0            0   8".
Definition b10427 : text := " 040247 AIR PARTIAL COLUMNS ON EACH RETRIEVED LAYER                      MOLECUL/CM**2            -20            0  16 	".
Definition b10428 : text := " 040248 A-PRIORI PARTIAL COLUMNS FOR CO EN EACH RETRIEVED LAYER          MOLECUL/CM**2            -13            0  16".
Definition b10429 : text := " 040249 SCAL. VEC. MULT. A-PRI. CO VEC. DEF. RETR. CO VEC.               NUMERIC                    5            0  26".
Definition b10430 : text := " 040250 MAIN EIGENVALUES OF THE SENSITIVITY MATRIX                       NUMERIC                    6            0  31".
Definition b10431 : text := " 040251 MAIN EIGENVECTORS OF THE SENSITIVITY MATRIX                      NUMERIC                    6     -1048576  24".
Definition b10432 : text := " 000001 TABLE A: ENTRY                                                   CCITTIA5                   0            0  24  ".
Definition b10433 : text := " 000002 TABLE A: DATA CATEGORY DESCRIPTION, LINE 1                       CCITTIA5                   0            0 256  ".
Definition b10434 : text := " 000003 TABLE A: DATA CATEGORY DESCRIPTION, LINE 2                       CCITTIA5                   0            0 256  ".
Definition b10435 : text := " 000005 BUFR EDITION NUMBER                                              CCITTIA5                   0            0  24  ".
Definition b10436 : text := " 000030 DESCRIPTOR DEFINING SEQUENCE                                     CCITTIA5                   0            0  40  ".
Definition b10437 : text := " 001003 WMO REGION NUMBER                                                NUMERIC                    0            0   3  ".
Definition b10438 : text := " 001004 WMO REGION SUB-AREA                                              NUMERIC                    0            0   3  ".
Definition b10439 : text := " 001006 AIRCRAFT IDENTIFIER                                              CCITTIA5                   0            0  64  ".
Definition b10440 : text := " 001008 AIRCRAFT REGISTRATION NUMBER                                     CCITTIA5                   0            0  64  ".
Definition b10441 : text := " 001011 SHIP'S CALL SIGN                                                 CCITTIA5                   0            0  72  ".
Definition b10442 : text := " 001012 DIRECTION OF MOTION OF MOVING OBSERVING PLATFORM                 DEGREE TRUE                0            0   9  ".
Definition b10443 : text := " 001013 SPEED OF MOTION OF MOVING OBSERVING PLATFORM                     M/S                        0            0  10  ".
Definition b10444 : text := " 001014 PLATFORM DRIFT SPEED(HIGH PRECISION                              M/S                        2            0  10  ".
Definition b10445 : text := " 001031 GENERATING CENTRE                                                CODE TABLE 001031          0            0  16  ".
Definition b10446 : text := " 002004 TYPE OF INSTRUMENTATION FOR EVAPORATION MEASUEMENT OR TYPE OF CR CODE TABLE 002004          0            0   4  ".
Definition b10447 : text := " 002005 PRECISION OF TEMTERATURE OBS.                                    K                          2            0   7  ".
Definition b10448 : text := " 002014 TRACKING TECHNIQUE/STATUS OF SYSTEM                              CODE TABLE 002014          0            0   7  ".
Definition b10449 : text := " 002015 RADIOSONDE COMPLETNESS                                           CODE TABLE 002015          0            0   4  ".
Definition b10450 : text := " 002022 SATELLITE DATA PROCESSING TECHNIQUE USED                         FLAG TABLE 002022          0            0   8  ".
Definition b10451 : text := " 002023 CLOUD MOTION COMPUTATIONAL METHOD                                CODE TABLE 002023          0            0   4  ".
Definition b10452 : text := " 002025 SATELLITE CHANNEL                                                FLAG TABLE 002025          0            0  25  ".
Definition b10453 : text := " 002031 METHOD OF CURRENT MEASUREMENT                                    CODE TABLE 002031          0            0   5  ".
Definition b10454 : text := " 002106 3-dB BEAMWIDTH                                                   DEGREE                     1            0   6  ".
Definition b10455 : text := " 002107 SIDELOBE SUPPRESION                                              dB                         0            0   6  ".
Definition b10456 : text := " 002108 CROSSPOL DISCRIMINATION(ON AXIS)                                 dB                         0            0   6  ".
Definition b10457 : text := " 002109 ANTENNA SPEED(AZIMUTH)                                           DEGREE/S                   2            0  12  ".
Definition b10458 : text := " 002110 ANTENNA SPEED(ELEVATION)                                         DEGREE/S                   2            0  12  ".
Definition b10459 : text := " 002112 RADAR TARGET AZIMUTH ANGLE                                       DEGREE                     1            0  12  ".
Definition b10460 : text := " 002113 NO. OF AZIMUTH LOOKS                                             NUMERIC                    0            0   4  ".
Definition b10461 : text := " 002114 ANTENNA EFFECTIVE SRFACE AREA                                    M**2                       0            0  15  ".
Definition b10462 : text := " 002127 RECEIVER INTERMEDIATEFREQUENCY (IF)                              Hz                        -6            0   7  ".
Definition b10463 : text := " 002129 MINIMUM DETECTABLE SIGNAL(MDS)                                   dB                         0         -150   5  ".
Definition b10464 : text := " 002131 SENSITIVITY TIME CONTROL(STC)                                    FLAG TABLE 002131          0            0   2  ".
Definition b10465 : text := " 004011 TIME INCREMENT                                                   YEARS                      0        -1024  11  ".
Definition b10466 : text := " 004012 TIME INCREMENT                                                   MONTHS                     0        -1024  11  ".
Definition b10467 : text := " 004013 TIME INCREMENT                                                   DAYS                       0        -1024  11  ".
Definition b10468 : text := " 004014 TIME INCREMENT                                                   HOURS                      0        -1024  11  ".
Definition b10469 : text := " 004015 TIME INCREMENT                                                   MINUTES                    0        -2048  12  ".
Definition b10470 : text := " 004016 TIME INCREMENT                                                   SECONDS                    0        -4096  13  ".
Definition b10471 : text := " 004021 TIME PERIOD OR DISPLACEMENT                                      YEARS                      0        -1024  11  ".
Definition b10472 : text := " 004022 TIME PERIOD OR DISPLACEMENT                                      MONTHS                     0        -1024  11  ".
Definition b10473 : text := " 004023 TIME PERIOD OR DISPLACEMENT                                      DAYS                       0        -1024  11  ".
Definition b10474 : text := " 004024 TIME PERIOD OR DISPLACEMENT                                      HOURS                      0        -1024  11  ".
Definition b10475 : text := " 004025 TIME PERIOD OR DISPLACEMENT                                      MINUTES                    0        -2048  12  ".
Definition b10476 : text := " 004026 TIME PERIOD OR DISPLACEMENT                                      SECONDS                    0        -4096  13  ".
Definition b10477 : text := " 005033 PIXEL SIZE ON HORIZONTAL-1                                       M                         -1            0  16  ".
Definition b10478 : text := " 005232 DIRECTION (SPECTRAL)                                             DEGREE                     0            0  12  ".
Definition b10479 : text := " 006033 PIXEL SIZE ON HORIZONTAL-2                                       M                         -1            0  16  ".
Definition b10480 : text := " 007001 HEIGHT OF STATION                                                M                          0         -400  15  ".
Definition b10481 : text := " 007021 ELEVATION                                                        DEGREE                     2        -9000  15  ".
Definition b10482 : text := " 007062 DEPTH BELOW SEA SURFACE                                          M                          1            0  17  ".
Definition b10483 : text := " 008011 HORIZONTAL SIGNIFICANCE                                          CODE TABLE 008011          0            0   6  ".
Definition b10484 : text := " 008022 TOTAL NUMBER(WITH RESPECT TO ACCUMULATION OR AVERAGE)            NUMERIC                    0            0  16  ".
Definition b10485 : text := " 010050 STD.DEV. ALTITUDE                                                M                          2            0  16  ".
Definition b10486 : text := " 010051 PRESSURE REDUCED TO MSL                                          PA                        -1            0  14  ".
Definition b10487 : text := " 010061 3 HOUR PRESSURE CHANGE                                           PA                        -1         -500  10  ".
Definition b10488 : text := " 010062 24 HOUR PRESSURE CHANGE                                          PA                        -1         -500  10  ".
Definition b10489 : text := " 011035 VERTICAL GUST ACCELERATION                                       M/S                        2        -8192  14  ".
Definition b10490 : text := " 011036 MAXIMUM DERIVED EQUIVALENT VERTICAL GUST                         M/S                        1            0  10  ".
Definition b10491 : text := " 011041 MAXIMUM WIND SPEED (GUSTS)                                       M/S                        1            0  12  ".
Definition b10492 : text := " 011042 MAXIMUM WIND SPEED (10 MIN MEAN WIND)                            M/S                        1            0  12  ".
Definition b10493 : text := " 011050 STD.DEV. WIND SPEED                                              M/S                        1            0  12  ".
Definition b10494 : text := " 012001 TEMPERATURE/DRY BULB TEMPERATURE                                 K                          1            0  12  ".
Definition b10495 : text := " 012002 WET BULB TEMPERATURE                                             K                          1            0  12  ".
Definition b10496 : text := " 012003 DEW POINT TEMPERATURE                                            K                          1            0  12  ".
Definition b10497 : text := " 012004 DRY BULB TEMPERATURE AT 2M                                       K                          1            0  12  ".
Definition b10498 : text := " 012005 WET BULB TEMPERATURE AT 2M                                       K                          1            0  12  ".
Definition b10499 : text := " 012006 DEW POINT TEMPERATURE AT 2M                                      K                          1            0  12  ".
Definition b10500 : text := " 012011 MAXIMUM TEMPERATURE,AT HEIGHT AND OVER PERIOD SPECIFIED          K                          1            0  12  ".
Definition b10501 : text := " 012012 MINIMUM TEMPERATURE,AT HEIGHT AND OVER PERIOD SPECIFIED          K                          1            0  12  ".
Definition b10502 : text := " 012013 GROUND MINIMUM TEMPERATURE PAST 12 HOURS                         K                          1            0  12  ".
Definition b10503 : text := " 012014 MAXIMUM TEMPERATURE AT 2M, PAST 12 HOURS                         K                          1            0  12  ".
Definition b10504 : text := " 012015 MINIMUM TEMPERATURE AT 2M, PAST 12 HOURS                         K                          1            0  12  ".
Definition b10505 : text := " 012016 MAXIMUM TEMPERATURE AT 2M, PAST 24 HOURS                         K                          1            0  12  ".
Definition b10506 : text := " 012017 MINIMUM TEMPERATURE AT 2M, PAST 24 HOURS                         K                          1            0  12  ".
Definition b10507 : text := " 013001 SPECIFIC HUMIDITY                                                G/G                        5            0  14  ".
Definition b10508 : text := " 013002 MIXING RATIO                                                     G/G                        5            0  14  ".
Definition b10509 : text := " 013005 VAPOUR DENSITY                                                   G/M**3                     0            0   7  ".
Definition b10510 : text := " 013006 MIXING HEIGHT                                                    M                         -1          -40  16  ".
Definition b10511 : text := " 013011 TOTAL PRECIPITATION/TOTAL WATER EQUIVALENT                       M                          4           -1  14  ".
Definition b10512 : text := " 013012 DEPTH OF FRESH SNOW                                              M                          2            0  12  ".
Definition b10513 : text := " 013013 TOTAL SNOW DEPTH                                                 M                          2            0  16  ".
Definition b10514 : text := " 013014 RAINFALL/WATER EQUIVALENT OF SNOW (AVERAGE RATE)                 M/S                        7            0  12  ".
Definition b10515 : text := " 013015 SNOWFALL (AVERAGE RATE)                                          M/S                        1            0  10  ".
Definition b10516 : text := " 013016 PRECIPITABLE WATER                                               M                          3            0   7  ".
Definition b10517 : text := " 013019 TOTAL PRECIPITATION PAST 1 HOUR                                  M                          4           -1  14  ".
Definition b10518 : text := " 013020 TOTAL PRECIPITATION PAST 3 HOURS                                 M                          4           -1  14  ".
Definition b10519 : text := " 013021 TOTAL PRECIPITATION PAST 6 HOURS                                 M                          4           -1  14  ".
Definition b10520 : text := " 013022 TOTAL PRECIPITATION PAST 12 HOURS                                M                          4           -1  14  ".
Definition b10521 : text := " 013023 TOTAL PRECIPITATION PAST 24 HOURS                                M                          4           -1  14  ".
Definition b10522 : text := " 013031 EVAPOTRANSPIRATION                                               M                          3            0   7  ".
Definition b10523 : text := " 013032 EVAPORATION/EVAPOTRANSPIRATION                                   M                          4            0   8  ".
Definition b10524 : text := " 013041 PASQUILL-GILLFORD STABILITY CATEGORY                             CODE TABLE 013041          0            0   4  ".
Definition b10525 : text := " 013192 RELATIVE HUMUDITY AT 2 M                                         %                          0            0   8  ".
Definition b10526 : text := " 014001 LONG WAVE RADIATION,INTEGRATED OVER 24 HOURS                     J/M**2                    -3        -2048  12  ".
Definition b10527 : text := " 014002 LONG WAVE RADIATION,INTEGRATED OVER PERIOD SPECIFIED             J/M**2                    -3        -2048  12  ".
Definition b10528 : text := " 014003 SHORT WAVE RADIATION,INTEGRATED OVER 24 HOURS                    J/M**2                    -3        -2048  12  ".
Definition b10529 : text := " 014004 SHORT WAVE RADIATION,INTEGRATED OVER PERIOD SPECIFIED            J/M**2                    -3        -2048  12  ".
Definition b10530 : text := " 014011 NET LONG WAVE RADIATION,INTEGRATED OVER 24 HOURS                 J/M**2                    -3        -2048  12  ".
Definition b10531 : text := " 014012 NET LONG WAVE RADIATION,INTEGRATED OVER PERIOD SPECIFIED         J/M**2                    -3        -2048  12  ".
Definition b10532 : text := " 014013 NET SHORT WAVE RADIATION,INTEGRATED OVER 24 HOURS                J/M**2                    -3        -2048  12  ".
Definition b10533 : text := " 014014 NET SHORT WAVE RADIATION,INTEGRATED OVER PERIOD SPECIFIED        J/M**2                    -3        -2048  12  ".
Definition b10534 : text := " 014015 NET RADIATION INTEGRATED OVER 24HOURS                            J/M**2                    -4       -16384  15  ".
Definition b10535 : text := " 014016 NET RADIATION,INTEGRATED OVER PERIOD SPECIFIED                   J/M**2                    -4       -16384  15  ".
Definition b10536 : text := " 014017 INSTANTANEOUS LONG-WAVE RADIATION                                J/M**2                    -3        -2048  12  ".
Definition b10537 : text := " 014018 INSTANTANEOUS SHORT-WAVE RADIATION                               J/M**2                    -3        -2048  12  ".
Definition b10538 : text := " 014020 GLOBAL SOLAR RADIATION INTEGRATED OVER 24 HOURS                  J/M**2                    -4            0  15  ".
Definition b10539 : text := " 014021 GLOBAL RADIATION INTEGRATED OVERPERIOD SPECIFIED                 J/M**2                    -4            0  15  ".
Definition b10540 : text := " 014022 DIFFUSE SOLAR RADIATION INTEGRATED OVER 24 HOURS                 J/M**2                    -4            0  15  ".
Definition b10541 : text := " 014023 DIFFUSE SOLAR RADIATION INTEGRATED OVER PERIOD SPECIFIED         J/M**2                    -4            0  15  ".
Definition b10542 : text := " 014024 DIRECT SOLAR RADIATION INTEGRATED OVER 24 HOURS                  J/M**2                    -4            0  15  ".
Definition b10543 : text := " 014025 DIRECT SOLAR RADIATION INTEGRATED OVER PERIOD SPECIFIED          J/M**2                    -4            0  15  ".
Definition b10544 : text := " 014031 TOTAL SUNSHINE                                                   MINUTES                    0            0   6  ".
Definition b10545 : text := " 014032 TOTAL SUNSHINE                                                   HOURS                      0            0  10  ".
Definition b10546 : text := " 015001 OZON                                                             DOBSON                     0            0  10  ".
Definition b10547 : text := " 015202 INTEGRATED ELECTRON DENSITY                                      LOG/M**2                   3        13000  12  ".
Definition b10548 : text := " 020003 PRESENT WEATHER                                                  CODE TABLE 020003          0            0   8  ".
Definition b10549 : text := " 020004 PAST WEATHER (1)                                                 CODE TABLE 020004          0            0   4  ".
Definition b10550 : text := " 020005 PAST WEATHER (2)                                                 CODE TABLE 020005          0            0   4  ".
Definition b10551 : text := " 020015 PRESSURE AT THE BASE OF CLOUD                                    PA                        -1            0  14  ".
Definition b10552 : text := " 020016 PRESSURE AT THE TOP OF CLOUD                                     PA                        -1            0  14  ".
Definition b10553 : text := " 020034 SEA ICE CONCETRATION                                             CODE TABLE 020034          0            0   5  ".
Definition b10554 : text := " 020038 BEARING OF THE ICE EDGE                                          DEGREE TRUE                1            0  12  ".
Definition b10555 : text := " 020062 STATE OF GROUND (WITH OR WITHOUT SNOW)                           CODE TABLE 020062          0            0   5  ".
Definition b10556 : text := " 021001 HORIZONTAL REFLECTIVITY(ZH)                                      dB                         0          -64   7  ".
Definition b10557 : text := " 021002 VERTICAL REFLECTIVITY(ZV)                                        dB                         0          -64   7  ".
Definition b10558 : text := " 021003 DIFFERENTIAL REFLECTIVITY(ZDR)                                   dB                         1           -5   7  ".
Definition b10559 : text := " 021005 LINEAR DEPOLARISATION RATIO(LDR)                                 dB                         0          -65   6  ".
Definition b10560 : text := " 021006 CIRCULAR DEPOLARIZATION RATIO(CDR)                               dB                         0          -65   6  ".
Definition b10561 : text := " 021011 DOPPLER MEAN VELOCITY IN X-DIRECTION(VX)                         M/S                        0         -128   8  ".
Definition b10562 : text := " 021012 DOPPLER MEAN VELOCITY IN Y-DIRECTION(VY)                         M/S                        0         -128   8  ".
Definition b10563 : text := " 021013 DOPPLER MEAN VELOCITY IN Z-DIRECTION(VZ)                         M/S                        0         -128   8  ".
Definition b10564 : text := " 021014 DOPPLER MEAN VELOCITY RADIAL                                     M/S                        1        -4096  13  ".
Definition b10565 : text := " 021017 DOPPLER VELOCITY SPECTRAL WIDTH                                  M/S                        1        -4096   8  ".
Definition b10566 : text := " 021031 VERTICALLY INTEGRATED LIQUID-WATER CONTENT(VIL)                  KG/M**2                    0            0   7  ".
Definition b10567 : text := " 021051 SIGNAL POWER ABOVE ONE MW                                        dB                         0         -256   8  ".
Definition b10568 : text := " 022004 DIRECTION OF CURRENT                                             DEGREE TRUE                0            0  12  ".
Definition b10569 : text := " 022042 SEA TEMPERATURE                                                  K                          1            0  12  ".
Definition b10570 : text := " 022043 SEA TEMPERATURE                                                  K                          2            0  15  ".
Definition b10571 : text := " 022050 STANDARD DEVIATION SEA SURFACE TEMPERATURE                       K                          2            0   8  ".
Definition b10572 : text := " 022061 STATE OF SEA                                                     CODE TABLE 022061          0            0   4  ".
Definition b10573 : text := " 022062 SALINITY                                                         %.                         3            0  14  ".
Definition b10574 : text := " 023001 ACCIDENT EARLEY NOTIFICATION-ARTICLE APPLICABLE                  CODE TABLE 023001          0            0   3  ".
Definition b10575 : text := " 023002 ACTIVITY OR FACILITY INVOLVED ININCIDENT                         CODE TABLE 023002          0            0   5  ".
Definition b10576 : text := " 023005 COUSE OF INCIDENT                                                CODE TABLE 023005          0            0   2  ".
Definition b10577 : text := " 023007 CHARACTERISTIC OF RELEASE                                        CODE TABLE 023007          0            0   3  ".
Definition b10578 : text := " 023016 POSSIBILITY OF SIGNIFICANT CHEMICAL TOXIC HEATH EFFECT           CODE TABLE 023016          0            0   2  ".
Definition b10579 : text := " 023017 FLOW DISCHARGE OF MAJOR RECEPIENT                                M**3/S                     6            0  20  ".
Definition b10580 : text := " 023024 MAIN TRANSPORT SPEED WATER                                       M/S                        2            0  13  ".
Definition b10581 : text := " 024012 TRAJECTORY DOSE IN AIR ALONG THEMAIN TRANSPORT PATH(DEFINED LOCA mSv                        2            0  32  ".
Definition b10582 : text := " 024013 GAMMA DOSE IN AIR ALONG THE MAINTRANSPORT PATH(DEFINED LOCATION  mSv                        2            0  32  ".
Definition b10583 : text := " 024021 AIR CONCENTRATION(OF NAMED ISOTOP TYPE INCLUDING GROSS BETA      Bq/M**3                    2            0  32  ".
Definition b10584 : text := " 024022 CONCENTRATION IN PRECIPITATION ( OF NAMED ISOTOP TYPE)           Bq/L                       2            0  32  ".
Definition b10585 : text := " 025004 ECHO PROCESSING                                                  CODE TABLE 025004          0            1   2  ".
Definition b10586 : text := " 025011 GROUND ACCULTATION CORRECTION(SCREENING)                         CODE TABLE 025011          0            0   2  ".
Definition b10587 : text := " 025014 RADOM ATTENUATION CORRECTION                                     FLAG TABLE 025014          0            0   2  ".
Definition b10588 : text := " 025021 WIND COMPUTATION EHANCEMENT                                      FLAG TABLE 025021          0            0   8  ".
Definition b10589 : text := " 025030 SIGNAL TO NOISE RATIO                                            dB                         0          -32   8  ".
Definition b10590 : text := " 027001 LATITUDE(HIGH ACCURACY)                                          DEGREE                     5     -9000000  25  ".
Definition b10591 : text := " 027002 LATITUDE(COARSE ACCURACY)                                        DEGREE                     2        -9000  15  ".
Definition b10592 : text := " 027003 ALTERNATE LATITUDE                                               DEGREE                     2        -9000  15  ".
Definition b10593 : text := " 028001 LONGITUDE(HIGH ACCURACY)                                         DEGREE                     5    -18000000  26  ".
Definition b10594 : text := " 028002 LONGITUDE(COARSE ACCURACY)                                       DEGREE                     2       -18000  16  ".
Definition b10595 : text := " 028003 ALTERNATE LONGITUDE                                              DEGREE                     2       -18000  16  ".
Definition b10596 : text := " 029002 COORDINATE GRID TYPE                                             CODE TABLE 029002          0            0   3  ".
Definition b10597 : text := " 030001 PIXEL VALUE(4 BITS)                                              NUMERIC                    0            0   4  ".
Definition b10598 : text := " 031031 DATA PRESENT INDICATOR                                           NUMERIC                    0            0   1  ".
Definition b10599 : text := " 033001 QUALITY INFORMATION AS A 1 BIT FLAG                              FLAG TABLE 033001          0            0   1  ".
Definition b10600 : text := " 033002 QUALITY INFORMATION AS A 2 BIT F                                 FLAG TABLE 033002          0            0   2  ".
Definition b10601 : text := " 033003 QUALITY INFORMATION AS A 3 BIT F                                 FLAG TABLE 033003          0            0   3  ".
Definition b10602 : text := " 033004 QUALITY INFORMATION AS A 4 BIT F                                 FLAG TABLE 033004          0            0   4  ".
Definition b10603 : text := " 033007 % CONFIDENCE                                                     %                          0            0   7  ".
Definition b10604 : text := " 033191 ECMWF WAM QC INDICATOR                                           CODE TABLE 033191          0            0   2  ".
Definition b10605 : text := " 033201 ANALYSIS REPORT STATUS FLAGS                                     FLAG TABLE 033201          0            0  13  ".
Definition b10606 : text := " 033210 INCREMENTAL VARIATIONAL ANALYSISUPDATE NUMBER                    NUMERIC                    0            0   7  ".
Definition b10607 : text := " 033212 1D VAR ITERRATION NUMBER                                         NUMERIC                    0            0  10  ".
Definition b10608 : text := " 063191 Q/C APPLICATION                                                  CODE TABLE 063191          0            0   8  ".
Definition b10609 : text := " 063192 % CONFIDENCE                                                     %                          0            0   7  ".
Definition b10610 : text := " 001003 WMO REGION NUMBER/GEOGRAPHICAL AREA                              NUMERIC                    0            0   3  ".
Definition b10611 : text := " 001007 SATELLITE IDENTIFIER                                             CODE TABLE   1007          0            0  10  ".
Definition b10612 : text := " 001022 VULCANO NAME                                                     CCITTIA5                   0            0 160  ".
Definition b10613 : text := " 001031 GENERATING CENTRE                                                CODE TABLE   1031          0            0  16  ".
Definition b10614 : text := " 001032 GENERATING APPLICATION                                           CODE TABLE   1032          0            0   8  ".
Definition b10615 : text := " 001192 MODEL VERSION NUMBER                                             CODE TABLE   1192          0            0   8  ".
Definition b10616 : text := " 001193 SIGMA_0 SIMULATION METHOD                                        CODE TABLE   1193          0            0   4  ".
Definition b10617 : text := " 001197 RTP - PLATFORM TYPE                                              CODE TABLE   1197          0            0  10  ".
Definition b10618 : text := " 001198 ITP - DECK ID                                                    CODE TABLE   1198          0            0  10  ".
Definition b10619 : text := " 001199 DUP - DUPLICATE STATUS                                           CODE TABLE   1199          0            0   4  ".
Definition b10620 : text := " 001201 GENERATING APPLICATION                                           CODE TABLE   1201          0            0   8  ".
Definition b10621 : text := " 001205 SATELLITE IDENTIFIER                                             CODE TABLE   1205          0            0  10  ".
Definition b10622 : text := " 002001 TYPE OF STATION                                                  CODE TABLE   2001          0            0   2  ".
Definition b10623 : text := " 002002 TYPE OF INSTRUMENTATION FOR WIND MEASUREMENT                     FLAG TABLE   2002          0            0   4  ".
Definition b10624 : text := " 002003 TYPE OF MEASURING EQUIPMENT USED                                 CODE TABLE   2003          0            0   4  ".
Definition b10625 : text := " 002004 TYPE OF INSTRUMENTATION FOR EVAPORATION MEASUEMENT OR TYPE OF CR CODE TABLE   2004          0            0   4  ".
Definition b10626 : text := " 002011 RADIOSONDE TYPE                                                  CODE TABLE   2011          0            0   8  ".
Definition b10627 : text := " 002012 RADIOSONDE COMPUTATIONAL METHOD                                  CODE TABLE   2012          0            0   4  ".
Definition b10628 : text := " 002013 SOLAR AND INFRARED RADIATION CORRECTION                          CODE TABLE   2013          0            0   4  ".
Definition b10629 : text := " 002014 TRACKING TECHNIQUE/STATUS OF SYSTEM                              CODE TABLE   2014          0            0   7  ".
Definition b10630 : text := " 002015 RADIOSONDE COMPLETNESS                                           CODE TABLE   2015          0            0   4  ".
Definition b10631 : text := " 002021 SATELLITE INSTRUMENT DATA USED IN PROCESSING                     FLAG TABLE   2021          0            0   9  ".
Definition b10632 : text := " 002022 SATELLITE DATA PROCESSING TECHNIQUE USED                         FLAG TABLE   2022          0            0   8  ".
Definition b10633 : text := " 002023 CLOUD MOTION COMPUTATIONAL METHOD                                CODE TABLE   2023          0            0   4  ".
Definition b10634 : text := " 002024 INTEGRATED MEAN HUMIDITY COMPUTATIONAL METHOD                    CODE TABLE   2024          0            0   4  ".
Definition b10635 : text := " 002025 SATELLITE CHANNEL(S) USED IN COMPUTATION                         FLAG TABLE   2025          0            0  25  ".
Definition b10636 : text := " 002030 METHOD OF CURRENT MEASUREMENT                                    CODE TABLE   2030          0            0   3  ".
Definition b10637 : text := " 002031 DURATION AND TIME OF CURRENT MEASUREMENT                         CODE TABLE   2031          0            0   5  ".
Definition b10638 : text := " 002032 INDICATOR FOR DIGITIZATION                                       CODE TABLE   2032          0            0   2  ".
Definition b10639 : text := " 002033 METHOD OF SALINITY/DEPTH MEASUREMENT                             CODE TABLE   2033          0            0   3  ".
Definition b10640 : text := " 002034 DROGUE TYPE                                                      CODE TABLE   2034          0            0   5  ".
Definition b10641 : text := " 002036 BUOY TYPE                                                        CODE TABLE   2036          0            0   2  ".
Definition b10642 : text := " 002041 METHOD FOR ESTIMATING REPORTS RELATED TO SYNOPTIC FEATURES       CODE TABLE   2041          0            0   6  ".
Definition b10643 : text := " 002061 AIRCRAFT NAVIGATIONAL SYSTEM                                     CODE TABLE   2061          0            0   3  ".
Definition b10644 : text := " 002062 TYPE OF AIRCRAFT DATA RELAY SYSTEM                               CODE TABLE   2062          0            0   4  ".
Definition b10645 : text := " 002064 AIRCRAFT ROLL ANGLE QUALITY                                      CODE TABLE 002064          0            0   2".
Definition b10646 : text := " 002070 ORIGINAL SPECIFICATION OF LATITUDE/LONGITUDE                     CODE TABLE   2070          0            0   4  ".
Definition b10647 : text := " 002101 TYPE OF ANTENNA                                                  CODE TABLE   2101          0            0   4  ".
Definition b10648 : text := " 002103 RADOME                                                           FLAG TABLE   2103          0            0   2  ".
Definition b10649 : text := " 002104 ANTENNA POLARISATION                                             CODE TABLE   2104          0            0   4  ".
Definition b10650 : text := " 002131 SENSITIVITY TIME CONTROL                                         FLAG TABLE   2131          0            0   2  ".
Definition b10651 : text := " 002193 1D VAR SATELLITE CHANNEL(S) USED                                 FLAG TABLE   2193          0            0  28  ".
Definition b10652 : text := " 002194 CONSTANT LEVEL BALLOON TYPE                                      CODE TABLE   2194          0            0   4  ".
Definition b10653 : text := " 002195 TYPE OF SATELLITE INSTRUMENTATION                                CODE TABLE   2195          0            0   4  ".
Definition b10654 : text := " 002196 SATELLITE CLASSIFICATION                                         CODE TABLE   2196          0            0   9  ".
Definition b10655 : text := " 002199 INTEGRATED MEAN HUMIDITY COMPUTATIONAL METHOD                    CODE TABLE   2199          0            0   4  ".
Definition b10656 : text := " 002201 SIMULATED SATELLITE INSTRUMENT                                   FLAG TABLE   2201          0            0   4  ".
Definition b10657 : text := " 002202 SIMULATED DATA PROCESSING TECHNIQUE USED                         FLAG TABLE   2202          0            0   4  ".
Definition b10658 : text := " 002220 DATA PRODUCER                                                    CODE TABLE   2220          0            0   9  ".
Definition b10659 : text := " 002221 SEGMENT SIZE AT NADIR IN X DIRECTION                             M                          0            0  18".
Definition b10660 : text := " 002222 SEGMENT SIZE AT NADIR IN Y DIRECTION                             M                          0            0  18".
Definition b10661 : text := " 002223 TOVS/ATOVS/AVHRR CHANNEL NUMBER                                  CODE TABLE   2223          0            0   6".
Definition b10662 : text := " 002231 HEIGHT ASSIGNMENT METHOD                                         CODE TABLE   2231          0            0   4".
Definition b10663 : text := " 002232 TRACER CORRELATION METHOD                                        CODE TABLE   2232          0            0   3".
Definition b10664 : text := " 002251 RADIANCE COMPUTATIONAL METHOD                                    CODE TABLE   2251          0            0   4".
Definition b10665 : text := " 002252 SATELLITE INSTRUMENT DATA USED IN PROCESSING                     FLAG TABLE   2252          0            0  31  ".
Definition b10666 : text := " 002253 HUMIDITY COMPUTATIONAL METHOD                                    CODE TABLE   2253          0            0   8  ".
Definition b10667 : text := " 002254 RADIANCE TYPE                                                    CODE TABLE   2254          0            0   4  ".
Definition b10668 : text := " 004024 TIME PERIOD OR DISPLACEMENT                                      HOUR                       0        -1024  11  ".
Definition b10669 : text := " 005195 ENSEMBLE MEMBER NUMBER                                           NUMERIC                    0            0   7".
Definition b10670 : text := " 007007 HEIGHT                                                           M                          0        -1000  17".
Definition b10671 : text := " 008001 VERTICAL SOUNDING SIGNIFICANCE                                   FLAG TABLE   8001          0            0   7  ".
Definition b10672 : text := " 008002 VERTICAL SIGNIFICANCE (SURFACE OBSERVATIONS)                     CODE TABLE   8002          0            0   6  ".
Definition b10673 : text := " 008003 VERTICAL SIGNIFICANCE (SATELLITE OBSERVATIONS)                   CODE TABLE   8003          0            0   6  ".
Definition b10674 : text := " 008004 PHASE OF AIRCRAFT FLIGHT                                         CODE TABLE   8004          0            0   3  ".
Definition b10675 : text := " 008005 SURFACE SYNOPTIC FEATURE SIGNIFICANCE                            CODE TABLE   8005          0            0   4  ".
Definition b10676 : text := " 008007 DIMENSIONAL SIGNIFICANCE                                         CODE TABLE   8007          0            0   4  ".
Definition b10677 : text := " 008011 HORIZONTAL SIGNIFICANCE                                          CODE TABLE   8011          0            0   6  ".
Definition b10678 : text := " 008012 LAND/SEA QUALIFIER                                               CODE TABLE   8012          0            0   2  ".
Definition b10679 : text := " 008021 TIME SIGNIFICANCE                                                CODE TABLE   8021          0            0   5  ".
Definition b10680 : text := " 008023 FIRST ORDER STATISTICS                                           CODE TABLE   8023          0            0   6  ".
Definition b10681 : text := " 008024 DIFFERENCE STATISTICS                                            CODE TABLE   8024          0            0   6  ".
Definition b10682 : text := " 008193 TIME QUALIFIER                                                   CODE TABLE   8193          0            0   0 ".
Definition b10683 : text := " 008194 TOVS/ATOVS PRODUCT QUALIFIER                                     CODE TABLE   8070          0            0   4".
Definition b10684 : text := " 008195 DATA TYPE                                                        CODE TABLE   8195          0            0   7".
Definition b10685 : text := " 008222 GENERATOR SIGNIFICANCE                                           CODE TABLE   8222          0            0   4  ".
Definition b10686 : text := " 008223 LAND/ICE SURFACE FLAG                                            FLAG TABLE   8223          0            0   7  ".
Definition b10687 : text := " 010062 24 HOUR PRESSURE CHANGE                                          PA                        -1        -1000  11  ".
Definition b10688 : text := " 010063 CHARACTERISTIC OF PRESSURE TENDENCY                              CODE TABLE  10063          0            0   4  ".
Definition b10689 : text := " 010196 SOLAR ZENITH ANGLE                                               DEGREE                     2        -9000  15".
Definition b10690 : text := " 011031 DEGREE OF TURBULENCE                                             CODE TABLE  11031          0            0   4  ".
Definition b10691 : text := " 011049 STANDARD DEVIATION WIND DIRECTION                                DEGREE TRUE                0            0   9  ".
Definition b10692 : text := " 011050 STANDARD DEVIATION WIND SPEED                                    M/S                        1            0  12  ".
Definition b10693 : text := " 011051 STANDARD DEVIATION W COMPONENT                                   M/S                        1            0   8  ".
Definition b10694 : text := " 011076 PEAK TURBULENCE INTENSITY (EDDY DISSIPATION RATE)                m**(2/3)/S                 2            0   8".
Definition b10695 : text := " 013014 RAINFALL/WATER EQUIVALENT OF SNOW (AVERAGE RATE)                 KG/(M**2)S                 4            0  12  ".
Definition b10696 : text := " 013015 SNOWFALL (AVERAGE RATE)                                          M/S                        7            0  12  ".
Definition b10697 : text := " 013041 PASQUILL-GILLFORD STABILITY CATEGORY                             CODE TABLE  13041          0            0   4  ".
Definition b10698 : text := " 013198 RAIN FLAG                                                        CODE TABLE  13198          0            0   3  ".
Definition b10699 : text := " 013202 TYPE OF SURFACE                                                  CODE TABLE  13202          0            0   8  ".
Definition b10700 : text := " 014001 LONG-WAVE RADIATION,INTEGRATED OVER 24 HOURS                     J/M**2                    -3        -2048  12  ".
Definition b10701 : text := " 014002 LONG-WAVE RADIATION,INTEGRATED OVER PERIOD SPECIFIED             J/M**2                    -3        -2048  12  ".
Definition b10702 : text := " 014003 SHORT-WAVE RADIATION,INTEGRATED OVER 24 HOURS                    J/M**2                    -3        -2048  12  ".
Definition b10703 : text := " 014004 SHORT-WAVE RADIATION,INTEGRATED OVER PERIOD SPECIFIED            J/M**2                    -3        -2048  12  ".
Definition b10704 : text := " 014011 NET LONG-WAVE RADIATION,INTEGRATED OVER 24 HOURS                 J/M**2                    -3        -2048  12  ".
Definition b10705 : text := " 014012 NET LONG-WAVE RADIATION,INTEGRATED OVER PERIOD SPECIFIED         J/M**2                    -3        -2048  12  ".
Definition b10706 : text := " 014013 NET SHORT-WAVE RADIATION,INTEGRATED OVER 24 HOURS                J/M**2                    -3        -2048  12  ".
Definition b10707 : text := " 014014 NET SHORT-WAVE RADIATION,INTEGRATED OVER PERIOD SPECIFIED        J/M**2                    -3        -2048  12  ".
Definition b10708 : text := " 019001 TYPE OF SYNOPTIC FEATURE                                         CODE TABLE  19001          0            0   6  ".
Definition b10709 : text := " 019008 VERTICAL EXTENT OF CIRCULATION                                   CODE TABLE  19008          0            0   3  ".
Definition b10710 : text := " 019009 EFFECTIVE RADIUS WITH RESPECT TOWIND SPEEDS ABOVE TRESHOLD       M                         -3            0  12  ".
Definition b10711 : text := " 020003 PRESENT WEATHER                                                  CODE TABLE  20003          0            0   9  ".
Definition b10712 : text := " 020004 PAST WEATHER (1)                                                 CODE TABLE  20004          0            0   5  ".
Definition b10713 : text := " 020005 PAST WEATHER (2)                                                 CODE TABLE  20005          0            0   5  ".
Definition b10714 : text := " 020011 CLOUD AMOUNT                                                     CODE TABLE  20011          0            0   4  ".
Definition b10715 : text := " 020012 CLOUD TYPE                                                       CODE TABLE  20012          0            0   6  ".
Definition b10716 : text := " 020017 CLOUD TOP DESCRIPTION                                            CODE TABLE  20017          0            0   4  ".
Definition b10717 : text := " 020032 RATE OF ICE ACCRETION                                            CODE TABLE  20032          0            0   3  ".
Definition b10718 : text := " 020033 CAUSE OF ICE ACCRETION                                           FLAG TABLE  20033          0            0   4  ".
Definition b10719 : text := " 020034 SEA ICE CONCETRATION                                             CODE TABLE  20034          0            0   5  ".
Definition b10720 : text := " 020035 AMOUNT AND TYPE OF ICE                                           CODE TABLE  20035          0            0   4  ".
Definition b10721 : text := " 020036 ICE SITUATION                                                    CODE TABLE  20036          0            0   5  ".
Definition b10722 : text := " 020037 ICE DEVELOPMENT                                                  CODE TABLE  20037          0            0   5  ".
Definition b10723 : text := " 020038 BEARING OF THE ICE EDGE                                          DEGREE TRUE                0            0  12  ".
Definition b10724 : text := " 020041 AIRFRAME ICING                                                   CODE TABLE  20041          0            0   4  ".
Definition b10725 : text := " 020062 STATE OF GROUND (WITH OR WITHOUT SNOW)                           CODE TABLE  20062          0            0   5  ".
Definition b10726 : text := " 020063 SPECIAL PHENOMENA                                                CODE TABLE  20063          0            0  10  ".
Definition b10727 : text := " 020192 SPECIAL PHENOMENA                                                CODE TABLE  20192          0            0  14  ".
Definition b10728 : text := " 020215 PRESSURE AT THE BASE OF CLOUD                                    PA                        -1            0  14".
Definition b10729 : text := " 020250 CALCULATED SURFACE TYPE                                          CODE TABLE  20250          0            0   5  ".
Definition b10730 : text := " 020251 ICE AGE                                                          CODE TABLE  20251          0            0   3  ".
Definition b10731 : text := " 020252 ICE EDGE                                                         CODE TABLE  20252          0            0   3  ".
Definition b10732 : text := " 020253 SURFACE TYPE                                                     CODE TABLE  20253          0            0   3  ".
Definition b10733 : text := " 021006 CIRCULAR DEPOLARIZATION RATIO                                    dB                         0          -65   6  ".
Definition b10734 : text := " 021051 SIGNAL POWER ABOVE 1 mW                                          dB                         0         -256   8  ".
Definition b10735 : text := " 021196 UWA PRODUCT CONFIDENCE                                           FLAG TABLE  21196          0            0  12  ".
Definition b10736 : text := " 021197 UWI PRODUCT CONFIDENCE                                           FLAG TABLE  21197          0            0  12  ".
Definition b10737 : text := " 021198 URA PRODUCT CONFIDENCE                                           FLAG TABLE  21198          0            0   8  ".
Definition b10738 : text := " 021199 UAT PRODUCT CONFIDENCE                                           FLAG TABLE  21199          0            0   7  ".
Definition b10739 : text := " 021200 MWI PRODUCT CONFIDENCE                                           FLAG TABLE  21200          0            0  15  ".
Definition b10740 : text := " 021202 ALTIMETER CALIBRATION STATUS                                     FLAG TABLE  21202          0            0   4  ".
Definition b10741 : text := " 021203 ALTIMETER INSTRUMENT MODE                                        FLAG TABLE  21203          0            0   9  ".
Definition b10742 : text := " 021206 REPRESENTATION OF INTENSITY                                      CODE TABLE  21206          0            0   3  ".
Definition b10743 : text := " 021214 UAT QUALITY SUMMARY                                              CODE TABLE  21214          0            0   3  ".
Definition b10744 : text := " 021225 PRESCAT PRODUCT CONFIDENCE                                       FLAG TABLE  21225          0            0   6  ".
Definition b10745 : text := " 021235 WIND VECTOR CELL QUALITY FLAG                                    FLAG TABLE  21235          0            0   3  ".
Definition b10746 : text := " 021244 SIGMA-0 QUALITY FLAG                                             FLAG TABLE  21244          0            0  15  ".
Definition b10747 : text := " 022061 STATE OF SEA                                                     CODE TABLE  22061          0            0   4  ".
Definition b10748 : text := " 023001 ACCIDENT EARLY NOTIFICATION-ARTICLE APPLICABLE                   CODE TABLE  23001          0            0   3  ".
Definition b10749 : text := " 023002 ACTIVITY OR FACILITY INVOLVED ININCIDENT                         CODE TABLE  23002          0            0   5  ".
Definition b10750 : text := " 023003 TYPE OF RELEASE                                                  CODE TABLE  23003          0            0   3  ".
Definition b10751 : text := " 023004 COUNTERMEASURES TAKEN NEAR BORDER                                CODE TABLE  23004          0            0   3  ".
Definition b10752 : text := " 023005 COUSE OF INCIDENT                                                CODE TABLE  23005          0            0   2  ".
Definition b10753 : text := " 023006 INCIDENT SITUATION                                               CODE TABLE  23006          0            0   3  ".
Definition b10754 : text := " 023007 CHARACTERISTICS OF RELEASE                                       CODE TABLE  23007          0            0   3  ".
Definition b10755 : text := " 023008 STATE OF CURRENT RELEASE                                         CODE TABLE  23008          0            0   2  ".
Definition b10756 : text := " 023009 STATE OF EXPECTED RELEASE                                        CODE TABLE  23009          0            0   2  ".
Definition b10757 : text := " 023016 POSSIBILITY OF SIGNIFICANT CHEMICAL TOXIC HEALTH EFFECT          CODE TABLE  23016          0            0   2  ".
Definition b10758 : text := " 023018 RELEASE BEHAVIOUR OVER TIME                                      CODE TABLE  23018          0            0   3  ".
Definition b10759 : text := " 023031 POSSIBILITY THAT PLUME WILL ENCOUNTER PRECIPITATION IN STATE IN  CODE TABLE  23031          0            0   2  ".
Definition b10760 : text := " 023032 PLUME WILL ENCOUNTER CHANGE IN WIND DIRECTION AND/OR SPEED FLAG  CODE TABLE  23032          0            0   2  ".
Definition b10761 : text := " 024003 COMPOSITION OF RELEASE                                           CODE TABLE  24003          0            0   5  ".
Definition b10762 : text := " 024012 TRAJECTORY DOSE (DEFINED LOCATION AND EXPECTED TIME)             mSv                        2            0  32  ".
Definition b10763 : text := " 024021 AIR CONCENTRATION(OF NAMED ISOTOPE TYPE INCLUDING GROSS BETA     Bq/M**3                    2            0  32  ".
Definition b10764 : text := " 024022 CONCENTRATION IN PRECIPITATION ( OF NAMED ISOTOPE TYPE)          Bq/L                       2            0  32  ".
Definition b10765 : text := " 025004 ECHO PROCESSING                                                  CODE TABLE  25004          0            0   2  ".
Definition b10766 : text := " 025005 ECHO INTEGRATION                                                 CODE TABLE  25005          0            0   2  ".
Definition b10767 : text := " 025006 Z TO R CONVERSION                                                CODE TABLE  25006          0            0   3  ".
Definition b10768 : text := " 025009 CALIBRATION METHOD                                               FLAG TABLE  25009          0            0   4  ".
Definition b10769 : text := " 025010 CLUTTER TREATMENT                                                CODE TABLE  25010          0            0   4  ".
Definition b10770 : text := " 025011 GROUND ACCULTATION CORRECTION(SCREENING)                         CODE TABLE  25011          0            0   2  ".
Definition b10771 : text := " 025012 RANGE ATTENUATION CORRECTION                                     CODE TABLE  25012          0            0   2  ".
Definition b10772 : text := " 025013 BRIGHT-BAND CORRECTION                                           FLAG TABLE  25013          0            0   2  ".
Definition b10773 : text := " 025014 RADOM ATTENUATION CORRECTION                                     FLAG TABLE  25014          0            0   2  ".
Definition b10774 : text := " 025017 PRECIPITATION ATTENUATION CORRECTION                             FLAG TABLE  25017          0            0   2  ".
Definition b10775 : text := " 025020 MEAN SPEED ESTIMATION                                            CODE TABLE  25020          0            0   2  ".
Definition b10776 : text := " 025021 WIND COMPUTATION EHANCEMENT                                      FLAG TABLE  25021          0            0   8  ".
Definition b10777 : text := " 025032 WIND PROFILER MODE INFORMATION                                   CODE TABLE  25032          0            0   2  ".
Definition b10778 : text := " 025033 NOAA WIND PROFILER SUBMODE INFORMATION                           CODE TABLE  25033          0            0   2  ".
Definition b10779 : text := " 025034 NOAA WIND PROFILER QUALITY CONTROL TEST RESULTS                  FLAG TABLE  25034          0            0   4  ".
Definition b10780 : text := " 025194 MAJOR FRAME COUNT                                                NUMERIC                    0            0   4".
Definition b10781 : text := " 025197 ANTENNA CORRECTIONS VERSION NUMBER                               NUMERIC                    0            0   5".
Definition b10782 : text := " 025198 LOG (TEMP-RAD CENTRAL WAVE NUMBER)                               1/M                        8            0  30".
Definition b10783 : text := " 025199 BANDWIDTH CORRECTION COEFFICIENT 1                               NUMERIC                    4       -10000  15".
Definition b10784 : text := " 025200 BANDWIDTH CORRECTION COEFFICIENT 2                               NUMERIC                    5            0  17".
Definition b10785 : text := " 025201 ALBEDO-RAD SOLAR FILTERED IRRADIANCE                             NUMERIC                    4            0  24".
Definition b10786 : text := " 025202 ALBEDO-RAD EQUIVALENT FILTER WIDTH                               NUMERIC                   10            0  14".
Definition b10787 : text := " 025203 SCAN LINE STATUS FLAGS FOR ATOVS                                 FLAG TABLE  25081          0            0  31".
Definition b10788 : text := " 025204 SCAN LINE QUALITY FLAGS FOR ATOVS                                FLAG TABLE  25082          0            0  31".
Definition b10789 : text := " 025205 CHANNEL QUALITY FLAGS FOR ATOVS                                  FLAG TABLE  25083          0            0  31".
Definition b10790 : text := " 025206 FOV QUALITY FLAGS FOR ATOVS                                      FLAG TABLE  25084          0            0  31".
Definition b10791 : text := " 026193 YEAR                                                             YEAR                       0            0  12".
Definition b10792 : text := " 026194 MONTH                                                            MONTH                      0            0   4".
Definition b10793 : text := " 027193 SOLAR AZIMUTH                                                    DEGREE TRUE                2            0  16".
Definition b10794 : text := " 029001 PROJECTION TYPE                                                  CODE TABLE  29001          0            0   3  ".
Definition b10795 : text := " 029002 CO-ORDINATE GRID TYPE                                            CODE TABLE  29002          0            0   2  ".
Definition b10796 : text := " 030031 PICTURE TYPE                                                     CODE TABLE  30031          0            0   4  ".
Definition b10797 : text := " 030032 COMBINATION WITH OTHER DATA                                      FLAG TABLE  30032          0            0  16  ".
Definition b10798 : text := " 031021 ASSOCIATED FIELD SIGNIFICANCE                                    CODE TABLE  31021          0            0   6  ".
Definition b10799 : text := " 033002 QUALITY INFORMATION TABLE                                        CODE TABLE  33002          0            0   2  ".
Definition b10800 : text := " 033003 QUALITY INFORMATION TABLE                                        CODE TABLE  33003          0            0   3  ".
Definition b10801 : text := " 033193 DATA QUALITY 3 BIT CODE                                          CODE TABLE  33193          0            0   3  ".
Definition b10802 : text := " 033194 DATA QUALITY 2 BIT CODE                                          CODE TABLE  33194          0            0   2  ".
Definition b10803 : text := " 033195 ECMWF SAR QC INDICATOR                                           CODE TABLE  33195          0            0   5  ".
Definition b10804 : text := " 033196 ECMWF WAM QC INDICATOR                                           CODE TABLE  33196          0            0   2  ".
Definition b10805 : text := " 033197 ECMWF SAR INVERSION QC INDICATOR                                 CODE TABLE  33197          0            0   3  ".
Definition b10806 : text := " 033200 ANALYSIS REPORT EVENTS                                           FLAG TABLE  33200          0            0  31  ".
Definition b10807 : text := " 033201 ANALYSIS REPORT STATUS EVENT                                     FLAG TABLE  33201          0            0  13  ".
Definition b10808 : text := " 033202 ANALYSIS DATUM EVENT FLAGS (1)                                   FLAG TABLE  33202          0            0  31  ".
Definition b10809 : text := " 033203 ANALYSIS DATUM EVENT FLAGS (2)                                   FLAG TABLE  33203          0            0  11  ".
Definition b10810 : text := " 033204 ANALYSIS DATUM STATUS FLAGS                                      FLAG TABLE  33204          0            0  21  ".
Definition b10811 : text := " 033205 VARIATIONAL ANALYSIS BLACK LIST FLAG                             CODE TABLE  33205          0            0   4  ".
Definition b10812 : text := " 033206 VARIATIONAL ANALYSIS QUALITY CONTROL FLAG                        CODE TABLE  33206          0            0   4  ".
Definition b10813 : text := " 033207 VARIATIONAL ANALYSIS DEPARTURE FLAG                              CODE TABLE  33207          0            0   4  ".
Definition b10814 : text := " 033208 VARIATIONAL ANALYSIS FIRST QUESSCHECK FLAG                       CODE TABLE  33208          0            0   4  ".
Definition b10815 : text := " 033209 VARIATIONAL ANALYSIS FINAL FLAG                                  CODE TABLE  33209          0            0   4  ".
Definition b10816 : text := " 033214 1D VAR ERROR(S)                                                  FLAG TABLE  33214          0            0  11  ".
Definition b10817 : text := " 033216 1D VAR SURFACE TYPE QUALITY CONTROL                              CODE TABLE  33216          0            0   3  ".
Definition b10818 : text := " 033217 1D VAR FAILURE INDICATOR                                         CODE TABLE  33217          0            0   2  ".
Definition b10819 : text := " 033220 VARIATIONAL ANALYSIS REPORT EVENTS (1)                           FLAG TABLE  33220          0            0  31  ".
Definition b10820 : text := " 033221 VARIATIONAL ANALYSIS SYNOP EVENTS (2)                            FLAG TABLE  33221          0            0  31  ".
Definition b10821 : text := " 033222 VARIATIONAL ANALYSIS AIREP EVENTS (2)                            FLAG TABLE  33222          0            0  31  ".
Definition b10822 : text := " 033223 VARIATIONAL ANALYSIS SATOB EVENTS (2)                            FLAG TABLE  33223          0            0  31  ".
Definition b10823 : text := " 033224 VARIATIONAL ANALYSIS DRIBU EVENTS (2)                            FLAG TABLE  33224          0            0  31  ".
Definition b10824 : text := " 033225 VARIATIONAL ANALYSIS TEMP EVENTS (2)                             FLAG TABLE  33225          0            0  31  ".
Definition b10825 : text := " 033226 VARIATIONAL ANALYSIS PILOT EVENTS (2)                            FLAG TABLE  33226          0            0  31  ".
Definition b10826 : text := " 033227 VARIATIONAL ANALYSIS SATEM/TOVS EVENTS (2)                       FLAG TABLE  33227          0            0  31  ".
Definition b10827 : text := " 033228 VARIATIONAL ANALYSIS PAOB EVENTS (2)                             FLAG TABLE  33228          0            0  31  ".
Definition b10828 : text := " 033229 VARIATIONAL ANALYSIS SCATTEROMETER EVENTS (2)                    FLAG TABLE  33229          0            0  31  ".
Definition b10829 : text := " 033230 VARIATIONAL ANALYSIS RAW RADIANCES EVENTS (2)                    FLAG TABLE  33230          0            0  31  ".
Definition b10830 : text := " 033231 PRESAT SUMMARY FLAGS                                             FLAG TABLE  33231          0            0   6  ".
Definition b10831 : text := " 033232 REPORT BLACK LIST EVENTS                                         FLAG TABLE  33232          0            0  31  ".
Definition b10832 : text := " 033233 VARIATIONAL ANALYSIS REPORT STATUS                               FLAG TABLE  33233          0            0  31  ".
Definition b10833 : text := " 033234 VARIATIONAL ANALYSIS DATUM STATUS                                FLAG TABLE  33234          0            0  31  ".
Definition b10834 : text := " 033236 VARIATIONAL ANALYSIS DATUM EVENTS (1)                            FLAG TABLE  33236          0            0  31  ".
Definition b10835 : text := " 033237 VARIATIONAL ANALYSIS SYNOP DATUMEVENTS (2)                       FLAG TABLE  33237          0            0  31  ".
Definition b10836 : text := " 033238 VARIATIONAL ANALYSIS AIREP DATUMEVENTS (2)                       FLAG TABLE  33238          0            0  31  ".
Definition b10837 : text := " 033239 VARIATIONAL ANALYSIS SATOB DATUMEVENTS (2)                       FLAG TABLE  33239          0            0  31  ".
Definition b10838 : text := " 033240 VARIATIONAL ANALYSIS DRIBU DATUMEVENTS (2)                       FLAG TABLE  33240          0            0  31  ".
Definition b10839 : text := " 033242 GROSS ERROR INDICATOR                                            CODE TABLE  33242          0            0   2  ".
Definition b10840 : text := " 033243 VARIATIONAL ANALYSIS TEMP DATUM EVENTS (2)                       FLAG TABLE  33243          0            0  31  ".
Definition b10841 : text := " 033244 VARIATIONAL ANALYSIS PILOT DATUMEVENTS (2)                       FLAG TABLE  33244          0            0  31  ".
Definition b10842 : text := " 033245 VARIATIONAL ANALYSIS SATEM/TOVS DATUM EVENTS (2)                 FLAG TABLE  33245          0            0  31  ".
Definition b10843 : text := " 033246 VARIATIONAL ANALYSIS PAOB DATUM EVENTS (2)                       FLAG TABLE  33246          0            0  31  ".
Definition b10844 : text := " 033247 VARIATIONAL ANALYSIS SCATTEROMETER DATUM EVENTS (2)              FLAG TABLE  33247          0            0  31  ".
Definition b10845 : text := " 033248 VARIATIONAL ANALYSIS RAW RADIANCES DATUM EVENTS (2)              FLAG TABLE  33248          0            0  31  ".
Definition b10846 : text := " 033249 DATUM BLACK LIST EVENTS                                          FLAG TABLE  33249          0            0  31  ".
Definition b10847 : text := " 033252 MANUAL-AUTOMATIC QUALITY CONTROL                                 CODE TABLE  33252          0            0   4  ".
Definition b10848 : text := " 033254 WIND CORRELATION METHOD                                          FLAG TABLE  33254          0            0  20".
Definition b10849 : text := " 055003 DATA EXTRACTION INDICATOR                                        FLAG TABLE  55003          0            0   8  ".
Definition b10850 : text := " 062190 STATISTICS APPLICATION                                           CODE TABLE  62190          0            0   8  ".
Definition b10851 : text := " 062191 TYPE OF STATISTICS                                               CODE TABLE  62191          0            0   8  ".
Definition b10852 : text := " 063190 APPLICATION DERIVING SUBSTITUTE OR ALTERNATIVE VALUE             CODE TABLE  63190          0            0   8  ".
Definition b10853 : text := " 000001 TABLE A: ENTRY                                                   CCITTIA5                   0            0  24".
Definition b10854 : text := " 000002 TABLE A: DATA CATEGORY DESCRIPTION, LINE 1                       CCITTIA5                   0            0 256".
Definition b10855 : text := " 000003 TABLE A: DATA CATEGORY DESCRIPTION, LINE 2                       CCITTIA5                   0            0 256".
Definition b10856 : text := " 000005 BUFR EDITION NUMBER                                              CCITTIA5                   0            0  24".
Definition b10857 : text := " 000010 F DESCRIPTOR TO BE ADDED OR DEFINED                              CCITTIA5                   0            0   8".
Definition b10858 : text := " 000011 X DESCRIPTOR TO BE ADDED OR DEFINED                              CCITTIA5                   0            0  16".
Definition b10859 : text := " 000012 Y DESCRIPTOR TO BE ADDED OR DEFINED                              CCITTIA5                   0            0  24".
Definition b10860 : text := " 000013 ELEMENT NAME, LINE 1                                             CCITTIA5                   0            0 256".
Definition b10861 : text := " 000014 ELEMENT NAME, LINE 2                                             CCITTIA5                   0            0 256".
Definition b10862 : text := " 000015 UNITS NAME                                                       CCITTIA5                   0            0 192".
Definition b10863 : text := " 000016 UNITS SCALE SIGN                                                 CCITTIA5                   0            0   8".
Definition b10864 : text := " 000017 UNITS SCALE                                                      CCITTIA5                   0            0  24".
Definition b10865 : text := " 000018 UNITS REFERENCE SIGN                                             CCITTIA5                   0            0   8".
Definition b10866 : text := " 000019 UNITS REFERENCE VALUE                                            CCITTIA5                   0            0  80".
Definition b10867 : text := " 000020 ELEMENT DATA WIDTH                                               CCITTIA5                   0            0  24".
Definition b10868 : text := " 000030 DESCRIPTOR DEFINING SEQUENCE                                     CCITTIA5                   0            0  48".
Definition b10869 : text := " 001001 WMO BLOCK NUMBER                                                 NUMERIC                    0            0   7".
Definition b10870 : text := " 001002 WMO STATION NUMBER                                               NUMERIC                    0            0  10".
Definition b10871 : text := " 001003 WMO REGION NUMBER/GEOGRAPHICAL AREA                              CODE TABLE 001003          0            0   3".
Definition b10872 : text := " 001004 WMO REGION SUB-AREA                                              NUMERIC                    0            0   3".
Definition b10873 : text := " 001005 BUOY/PLATFORM IDENTIFIER                                         NUMERIC                    0            0  17".
Definition b10874 : text := " 001006 AIRCRAFT FLIGHT NUMBER                                           CCITTIA5                   0            0  64".
Definition b10875 : text := " 001007 SATELLITE IDENTIFIER                                             CODE TABLE 001007          0            0  10".
Definition b10876 : text := " 001008 AIRCRAFT REGISTRATION NUMBER                                     CCITTIA5                   0            0  64".
Definition b10877 : text := " 001009 TYPE OF COMMERCIAL AIRCRAFT                                      CCITTIA5                   0            0  64".
Definition b10878 : text := " 001010 STATIONARY BUOY PLATFORM IDENTIFIER(C-MAN BUOYS)                 CCITTIA5                   0            0  64".
Definition b10879 : text := " 001011 SHIP OR MOBILE LAND STATION IDENTIFIER                           CCITTIA5                   0            0  72".
Definition b10880 : text := " 001012 DIRECTION OF MOTION OF MOVING OBSERVING PLATFORM                 DEGREE TRUE                0            0   9".
Definition b10881 : text := " 001013 SPEED OF MOTION OF MOVING OBSERVING PLATFORM                     M/S                        0            0  10".
Definition b10882 : text := " 001014 PLATFORM DRIFT SPEED (HIGH PRECISION)                            M/S                        2            0  10".
Definition b10883 : text := " 001015 STATION OR SITE NAME                                             CCITTIA5                   0            0 160".
Definition b10884 : text := " 001018 SHORT STATION OR SITE NAME                                       CCITTIA5                   0            0  40".
Definition b10885 : text := " 001019 LONG STATION OR SITE NAME                                        CCITTIA5                   0            0 256".
Definition b10886 : text := " 001020 WMO REGION SUB-AREA                                              NUMERIC                    0            0   4".
Definition b10887 : text := " 001021 SYNOPTIC FEATURE IDENTIFIER                                      NUMERIC                    0            0  14".
Definition b10888 : text := " 001022 NAME OF FEATURE                                                  CCITTIA5                   0            0 224".
Definition b10889 : text := " 001023 OBSERVATION SEQUENCE NUMBER                                      NUMERIC                    0            0   9".
Definition b10890 : text := " 001025 STORM IDENTIFIER                                                 CCITTIA5                   0            0  24".
Definition b10891 : text := " 001026 WMO STORM NAME                                                   CCITTIA5                   0            0  64".
Definition b10892 : text := " 001027 WMO LONG STORM NAME                                              CCITTIA5                   0            0  80".
Definition b10893 : text := " 001031 IDENTIFICATION OF ORIGINATING/GENERATING CENTRE                  CODE TABLE 001031          0            0  16".
Definition b10894 : text := " 001032 GENERATING APPLICATION                                           CODE TABLE 001032          0            0   8".
Definition b10895 : text := " 001033 IDENTIFICATION OF ORIGINATING/GENERATING CENTRE                  CODE TABLE 001033          0            0   8".
Definition b10896 : text := " 001034 IDENTIFICATION OF ORIGINATING/GENERATING SUB-CENTRE              CODE TABLE 001034          0            0   8".
Definition b10897 : text := " 001035 ORIGINATING CENTRE                                               CODE TABLE 001035          0            0  16".
Definition b10898 : text := " 001036 AGENCY IN CHARGE OF OPERATING THE OBSERVING PLATFORM             CODE TABLE 001036          0            0  20".
Definition b10899 : text := " 001037 SIGMET SEQUENCE NUMBER                                           CCITTIA5                   0            0  24".
Definition b10900 : text := " 001041 ABSOLUTE PLATFORM VELOCITY - FIRST COMPONENT                     M/S                        5  -1073741824  31".
Definition b10901 : text := " 001042 ABSOLUTE PLATFORM VELOCITY - SECOND COMPONENT                    M/S                        5  -1073741824  31".
Definition b10902 : text := " 001043 ABSOLUTE PLATFORM VELOCITY - THIRD COMPONENT                     M/S                        5  -1073741824  31".
Definition b10903 : text := " 001050 PLATFORM TRANSMITTER ID NUMBER                                   NUMERIC                    0            0  17".
Definition b10904 : text := " 001051 PLATFORM TRANSMITTER ID NUMBER                                   CCITTIA5                   0            0  96".
Definition b10905 : text := " 001060 AIRCRAFT REPORTING POINT(BEACON IDENTIFIER)                      CCITTIA5                   0            0  64".
Definition b10906 : text := " 001062 SHORT ICAO LOCATION INDICATOR                                    CCITTIA5                   0            0  32".
Definition b10907 : text := " 001063 ICAO LOCATION INDICATOR                                          CCITTIA5                   0            0  64".
Definition b10908 : text := " 001064 RUNWAY DESIGNATOR                                                CCITTIA5                   0            0  32".
Definition b10909 : text := " 001065 ICAO REGION IDENTIFIER                                           CCITTIA5                   0            0 256".
Definition b10910 : text := " 001075 TIDE STATION IDENTIFICATION                                      CCITTIA5                   0            0  40".
Definition b10911 : text := " 001080 SHIP LINE NUMBER ACCORDING TO SOOP                               CCITTIA5                   0            0  32".
Definition b10912 : text := " 001085 OBSERVING PLATFORM MANUFACTURER'S MODEL                          CCITTIA5                   0            0 160".
Definition b10913 : text := " 001086 OBSERVING PLATFORM MANUFACTURER'S SERIAL NUMBER                  CCITTIA5                   0            0 256".
Definition b10914 : text := " 001090 TECHNIQUE FOR MAKING UP INITIAL PERTURBATIONS                    CODE TABLE 001090          0            0   8".
Definition b10915 : text := " 001091 ENSEMBLE MEMBER NUMBER                                           NUMERIC                    0            0  10".
Definition b10916 : text := " 001092 TYPE OF ENSEMBLE FORECAST                                        CODE TABLE 001092          0            0   8".
Definition b10917 : text := " 001095 SOFTWARE IDENTIFICATION AND VERSION NUMBER                       CCITTIA5                   0            0 112".
Definition b10918 : text := " 001096 ACQUISITION STATION IDENTIFIER                                   CCITTIA5                   0            0 160".
Definition b10919 : text := " 002001 TYPE OF STATION                                                  CODE TABLE 002001          0            0   2".
Definition b10920 : text := " 002002 TYPE OF INSTRUMENTATION FOR WIND MEASUREMENT                     FLAG TABLE 002002          0            0   4".
Definition b10921 : text := " 002003 TYPE OF MEASURING EQUIPMENT USED                                 CODE TABLE 002003          0            0   4".
Definition b10922 : text := " 002004 TYPE OF INSTRUMENTATION FOR EVAPORATION MEASUREMENT              CODE TABLE 002004          0            0   4".
Definition b10923 : text := " 002005 PRECISION OF TEMPERATURE OBSERVATION                             K                          2            0   7".
Definition b10924 : text := " 002011 RADIOSONDE TYPE                                                  CODE TABLE 002011          0            0   8".
Definition b10925 : text := " 002012 RADIOSONDE COMPUTATIONAL METHOD                                  CODE TABLE 002012          0            0   4".
Definition b10926 : text := " 002013 SOLAR AND INFRARED RADIATION CORRECTION                          CODE TABLE 002013          0            0   4".
Definition b10927 : text := " 002014 TRACKING TECHNIQUE/STATUS OF SYSTEM USED                         CODE TABLE 002014          0            0   7".
Definition b10928 : text := " 002015 RADIOSONDE COMPLETENESS                                          CODE TABLE 002015          0            0   4".
Definition b10929 : text := " 002019 SATELLITE INSTRUMENTS                                            CODE TABLE 002019          0            0  11".
Definition b10930 : text := " 002020 SATELLITE CLASSIFICATION                                         CODE TABLE 002020          0            0   9".
Definition b10931 : text := " 002021 SATELLITE INSTRUMENT DATA USED IN PROCESSING                     FLAG TABLE 002021          0            0   9".
Definition b10932 : text := " 002022 SATELLITE DATA PROCESSING TECHNIQUE USED                         FLAG TABLE 002022          0            0   8".
Definition b10933 : text := " 002023 SATELLITE DERIVED WIND COMPUTATION METHOD                        CODE TABLE 002023          0            0   4".
Definition b10934 : text := " 002024 INTEGRATED MEAN HUMIDITY COMPUTATIONAL METHOD                    CODE TABLE 002024          0            0   4".
Definition b10935 : text := " 002025 SATELLITE CHANNEL(S) USED IN COMPUTATION                         FLAG TABLE 002025          0            0  25".
Definition b10936 : text := " 002026 CROSS TRACK RESOLUTION                                           M                          2            0  12".
Definition b10937 : text := " 002027 ALONG TRACK RESOLUTION                                           M                          2            0  12".
Definition b10938 : text := " 002028 SEGMENT SIZE AT NADIR IN X DIRECTION                             M                          0            0  18".
Definition b10939 : text := " 002029 SEGMENT SIZE AT NADIR IN Y DIRECTION                             M                          0            0  18".
Definition b10940 : text := " 002030 METHOD OF CURRENT MEASUREMENT                                    CODE TABLE 002030          0            0   3".
Definition b10941 : text := " 002031 DURATION AND TIME OF CURRENT MEASUREMENT                         CODE TABLE 002031          0            0   5".
Definition b10942 : text := " 002032 INDICATOR FOR DIGITIZATION                                       CODE TABLE 002032          0            0   2".
Definition b10943 : text := " 002033 METHOD OF SALINITY/DEPTH MEASUREMENT                             CODE TABLE 002033          0            0   3".
Definition b10944 : text := " 002034 DROGUE TYPE                                                      CODE TABLE 002034          0            0   5".
Definition b10945 : text := " 002035 CABLE LENGTH                                                     M                          0            0   9".
Definition b10946 : text := " 002036 BUOY TYPE                                                        CODE TABLE 002036          0            0   2".
Definition b10947 : text := " 002037 METHOD OF TIDAL OBSERVATION                                      CODE TABLE 002037          0            0   3".
Definition b10948 : text := " 002038 METHOD OF SEA-SURFACE TEMPERATURE MEASUREMENT                    CODE TABLE 002038          0            0   4".
Definition b10949 : text := " 002039 METHOD OF WET-BULB TEMPERATURE MEASUREMENT                       CODE TABLE 002039          0            0   3".
Definition b10950 : text := " 002040 METHOD OF REMOVING VELOCITY AND MOTION OF PLATFORM FROM CURRENT  CODE TABLE 002040          0            0   4".
Definition b10951 : text := " 002041 METHOD FOR ESTIMATING REPORTS RELATED TO SYNOPTIC FEATURES       CODE TABLE 002041          0            0   6".
Definition b10952 : text := " 002044 INDICATOR FOR METHOD OF CALCULATING SPECTRAL WAVE DATA           CODE TABLE 002044          0            0   4".
Definition b10953 : text := " 002045 INDICATOR FOR TYPE OF PLATFORM                                   CODE TABLE 002045          0            0   4".
Definition b10954 : text := " 002046 WAVE MEASUREMENT INSTRUMENTATION                                 CODE TABLE 002046          0            0   4".
Definition b10955 : text := " 002048 SATELLITE SENSOR INDICATOR                                       CODE TABLE 002048          0            0   4".
Definition b10956 : text := " 002049 GEOSTATIONARY SATELLITE DATA-PROCESSING TECHNIQUE USED           FLAG TABLE 002049          0            0   8".
Definition b10957 : text := " 002050 GEOSTATIONARY SOUNDER SATELLITE CHANNELS USED                    FLAG TABLE 002050          0            0  20".
Definition b10958 : text := " 002051 INDICATOR TO SPECIFY OBSERVING METHOD FOR EXTREME TEMPERATURES   CODE TABLE 002051          0            0   4".
Definition b10959 : text := " 002052 GEOSTATIONARY IMAGER SATELLITE CHANNELS USED                     FLAG TABLE 002052          0            0   6".
Definition b10960 : text := " 002053 GOES-I/M BRIGHTNESS TEMPERATURE CHARACTERISTICS                  CODE TABLE 002053          0            0   4".
Definition b10961 : text := " 002054 GOES-I/M SOUNDINGS PARAMETER CHARACTERISTICS                     CODE TABLE 002054          0            0   4".
Definition b10962 : text := " 002055 GEOSTATIONARY SOUNDINGS STATISTICAL PARAMETERS                   CODE TABLE 002055          0            0   4".
Definition b10963 : text := " 002056 GEOSTATIONARY SOUNDINGS ACCURACY STATISTICS                      CODE TABLE 002056          0            0   4".
Definition b10964 : text := " 002057 ORIGIN OF FIRST GUESS INFORMATION                                CODE TABLE 002057          0            0   4".
Definition b10965 : text := " 002058 VALID TIMES OF FIRST GUESS INFORMATION FOR GOES-I/M SOUNDINGS    CODE TABLE 002058          0            0   4".
Definition b10966 : text := " 002059 ORIGIN OF ANALYSIS INFORMATION FOR GOES-I/M SOUNDINGS            CODE TABLE 002059          0            0   4".
Definition b10967 : text := " 002060 ORIGIN OF SURFACE INFORMATION FOR GOES-I/M SOUNDINGS             CODE TABLE 002060          0            0   4".
Definition b10968 : text := " 002061 AIRCRAFT NAVIGATIONAL SYSTEM                                     CODE TABLE 002061          0            0   3".
Definition b10969 : text := " 002062 TYPE OF AIRCRAFT DATA RELAY SYSTEM                               CODE TABLE 002062          0            0   4".
Definition b10970 : text := " 002063 AIRCRAFT ROLL ANGLE                                              DEGREE                     2       -18000  16".
Definition b10971 : text := " 002065 ACARS GROUND RECEIVING STATION                                   CCITTIA5                   0            0  40".
Definition b10972 : text := " 002070 ORIGINAL SPECIFICATION OF LATITUDE/LONGITUDE                     CODE TABLE 002070          0            0   4".
Definition b10973 : text := " 002091 ENTRY SENSOR 4/20 mA                                             A                          0            4  10".
Definition b10974 : text := " 002100 RADAR CONSTANT                                                   dB                         1            0  12".
Definition b10975 : text := " 002101 TYPE OF ANTENNA                                                  CODE TABLE 002101          0            0   4".
Definition b10976 : text := " 002102 ANTENNA HEIGHT ABOVE TOWER BASE                                  M                          0            0   8".
Definition b10977 : text := " 002103 RADOME                                                           FLAG TABLE 002103          0            0   2".
Definition b10978 : text := " 002104 ANTENNA POLARISATION                                             CODE TABLE 002104          0            0   4".
Definition b10979 : text := " 002105 MAXIMUM ANTENNA GAIN                                             dB                         0            0   6".
Definition b10980 : text := " 002106 3-dB BEAMWIDTH                                                   DEGREE                     1            0   6".
Definition b10981 : text := " 002107 SIDELOBE SUPPRESSION                                             dB                         0            0   6".
Definition b10982 : text := " 002108 CROSSPOL DISCRIMINATION(ON AXIS)                                 dB                         0            0   6".
Definition b10983 : text := " 002109 ANTENNA SPEED (AZIMUTH)                                          DEGREE/S                   2            0  12".
Definition b10984 : text := " 002110 ANTENNA SPEED (ELEVATION)                                        DEGREE/S                   2            0  12".
Definition b10985 : text := " 002111 RADAR INCIDENCE ANGLE                                            DEGREE                     1            0  10".
Definition b10986 : text := " 002112 RADAR LOOK ANGLE                                                 DEGREE                     1            0  12".
Definition b10987 : text := " 002113 NUMBER OF AZIMUTH LOOKS                                          NUMERIC                    0            0   4".
Definition b10988 : text := " 002114 ANTENNA EFFECTIVE SURFACE AREA                                   M**2                       0            0  15".
Definition b10989 : text := " 002116 PERCENTAGE OF 320 MHZ BAND PROCESSED                             %                          0            0   7".
Definition b10990 : text := " 002117 PERCENTAGE OF 80 MHZ BAND PROCESSED                              %                          0            0   7".
Definition b10991 : text := " 002118 PERCENTAGE OF 20 MHZ BAND PROCESSED                              %                          0            0   7".
Definition b10992 : text := " 002119 RA-2 INSTRUMENT OPERATIONS                                       CODE TABLE 002119          0            0   3".
Definition b10993 : text := " 002121 MEAN FREQUENCY                                                   Hz                        -8            0   7".
Definition b10994 : text := " 002122 FREQUENCY AGILITY RANGE                                          Hz                        -6         -128   8".
Definition b10995 : text := " 002123 PEAK POWER                                                       W                         -4            0   7".
Definition b10996 : text := " 002124 AVERAGE POWER                                                    W                         -1            0   7".
Definition b10997 : text := " 002125 PULSE REPETITION FREQUENCY                                       Hz                        -1            0   8".
Definition b10998 : text := " 002126 PULSE WIDTH                                                      S                          7            0   6".
Definition b10999 : text := " 002127 RECEIVER INTERMEDIATE FREQUENCY                                  Hz                        -6            0   7".
Definition b11000 : text := " 002128 INTERMEDIATE FREQUENCY BANDWIDTH                                 Hz                        -5            0   6".
Definition b11001 : text := " 002129 MINIMUM DETECTABLE SIGNAL                                        dB                         0         -150   5".
Definition b11002 : text := " 002130 DYNAMIC RANGE                                                    dB                         0            0   7".
Definition b11003 : text := " 002131 SENSITIVITY TIME CONTROL                                         FLAG TABLE 002131          0            0   2".
Definition b11004 : text := " 002132 AZIMUTH POINTING ACCURACY                                        DEGREE                     2            0   6".
Definition b11005 : text := " 002133 ELEVATION POINTING ACCURACY                                      DEGREE                     2            0   6".
Definition b11006 : text := " 002134 ANTENNA BEAM AZIMUTH                                             DEGREE                     2            0  16".
Definition b11007 : text := " 002135 ANTENNA ELEVATION                                                DEGREE                     2        -9000  15".
Definition b11008 : text := " 002136 RANGE PROCESSED BY RANGE ATTENUATION CORRECTION                  M                         -3            0  16".
Definition b11009 : text := " 002140 SATELLITE RADAR BEAM AZIMUTH ANGLE                               DEGREE                     0            0   9".
Definition b11010 : text := " 002141 MEASUREMENT TYPE                                                 CCITTIA5                   0            0  24".
Definition b11011 : text := " 002142 OZONE INSTRUMENT SERIAL NUMBER/IDENTIFICATION                    CCITTIA5                   0            0  32".
Definition b11012 : text := " 002143 OZONE INSTRUMENT TYPE                                            CODE TABLE 002143          0            0   7".
Definition b11013 : text := " 002144 LIGHT SOURCE TYPE FOR BREWER SPECTROPHOTOMETER                   CODE TABLE 002144          0            0   4".
Definition b11014 : text := " 002145 WAVE LENGTH SETTING FOR DOBSON INSTRUMENTS                       CODE TABLE 002145          0            0   4".
Definition b11015 : text := " 002146 SOURCE CONDITIONS FOR DOBSON INSTRUMENTS                         CODE TABLE 002146          0            0   4".
Definition b11016 : text := " 002148 DATA COLLECTION AND/OR LOCATION SYSTEM                           CODE TABLE 002148          0            0   5".
Definition b11017 : text := " 002149 TYPE OF DATA BUOY                                                CODE TABLE 002149          0            0   6".
Definition b11018 : text := " 002150 TOVS/ATOVS/AVHRR INSTRUMENTATION CHANNEL NUMBER                  CODE TABLE 002150          0            0   6".
Definition b11019 : text := " 002151 RADIOMETER IDENTIFIER                                            CODE TABLE 002151          0            0  11".
Definition b11020 : text := " 002152 SATELLITE INSTRUMENT USED IN DATA PROCESSING                     FLAG TABLE 002152          0            0  31".
Definition b11021 : text := " 002153 SATELLITE CHANNEL CENTRE FREQUENCY                               Hz                        -8            0  26".
Definition b11022 : text := " 002154 SATELLITE CHANNEL BAND WIDTH                                     Hz                        -8            0  26".
Definition b11023 : text := " 002156 PERCENTAGE OF VALID KU OCEAN RETRACKER MEASUREMENTS              %                          0            0   7".
Definition b11024 : text := " 002157 PERCENTAGE OF VALID S OCEAN RETRACKER MEASUREMENTS               %                          0            0   7".
Definition b11025 : text := " 002158 RA-2 INSTRUMENT                                                  FLAG TABLE 002158          0            0   9".
Definition b11026 : text := " 002159 MWR INSTRUMENT                                                   FLAG TABLE 002159          0            0   8".
Definition b11027 : text := " 002160 ASCENDING/DESCENDING ORBIT DESIGNATOR                            CODE TABLE 002160          0            0   2".
Definition b11028 : text := " 002163 HEIGHT ASSIGNMENT METHOD                                         CODE TABLE 002163          0            0   4".
Definition b11029 : text := " 002164 TRACER CORRELATION METHOD                                        CODE TABLE 002164          0            0   3".
Definition b11030 : text := " 002166 RADIANCE TYPE                                                    CODE TABLE 002166          0            0   4".
Definition b11031 : text := " 002167 RADIANCE COMPUTATIONAL METHOD                                    CODE TABLE 002167          0            0   4".
Definition b11032 : text := " 002168 HYDROSTATIC PRESSURE OF LOWER END OF CABLE (THERMISTOR STRING)   PA                        -3            0  16".
Definition b11033 : text := " 002169 ANEMOMETER TYPE                                                  CODE TABLE 002169          0            0   4".
Definition b11034 : text := " 002172 PRODUCT TYPE FOR RETRIEVED ATMOSPHERIC GASES                     CODE TABLE 002172          0            0   8".
Definition b11035 : text := " 002173 SQUARE OF THE OFF NADIR ANGLE                                    DEGREE**2                  4            0  10".
Definition b11036 : text := " 002174 MEAN ACROSS TRACK PIXEL NUMBER                                   NUMERIC                    0            0   9".
Definition b11037 : text := " 002175 METHOD OF PRECIPITATION MEASUREMENT                              CODE TABLE 002175          0            0   4".
Definition b11038 : text := " 002176 METHOD OF STATE OF GROUND MEASUREMENT                            CODE TABLE 002176          0            0   4".
Definition b11039 : text := " 002177 METHOD OF SNOW DEPTH MEASUREMENT                                 CODE TABLE 002177          0            0   4".
Definition b11040 : text := " 002178 METHOD OF LIQUID CONTENT MEASUREMENT OF PRECIPITATION            CODE TABLE 002178          0            0   4".
Definition b11041 : text := " 002179 TYPE OF SKY CONDITION ALGORITHM                                  CODE TABLE 002179          0            0   4".
Definition b11042 : text := " 002180 MAIN PRESENT WEATHER DETECTING SYSTEM                            CODE TABLE 002180          0            0   4".
Definition b11043 : text := " 002181 SUPPLEMENTARY PRESENT WEATHER SENSOR                             FLAG TABLE 002181          0            0  21".
Definition b11044 : text := " 002182 VISIBILITY MEASUREMENT SYSTEM                                    CODE TABLE 002182          0            0   4".
Definition b11045 : text := " 002183 CLOUD DETECTION SYSTEM                                           CODE TABLE 002183          0            0   4".
Definition b11046 : text := " 002184 TYPE OF LIGHTNING DETECTION SENSOR                               CODE TABLE 002184          0            0   4".
Definition b11047 : text := " 002185 METHOD OF EVAPORATION MEASUREMENT                                CODE TABLE 002185          0            0   4".
Definition b11048 : text := " 002186 CAPABILITY TO DETECT PRECIPITATION PHENOMENA                     FLAG TABLE 002186          0            0  30".
Definition b11049 : text := " 002187 CAPABILITY TO DETECT OTHER WEATHER PHENOMENA                     FLAG TABLE 002187          0            0  18".
Definition b11050 : text := " 002188 CAPABILITY TO DETECT OBSCURATION                                 FLAG TABLE 002188          0            0  21".
Definition b11051 : text := " 002189 CAPABILITY TO DISCRIMINATE LIGHTNING STRIKES                     FLAG TABLE 002189          0            0  12".
Definition b11052 : text := " 002190 LAGRANGIAN DRIFTER SUBMERGENCE (% TIME SUBMERGED)                %                          0            0   7".
Definition b11053 : text := " 002223 TOVS/ATOVS/AVHRR CHANNEL NUMBER                                  CODE TABLE   2223          0            0   6  ".
Definition b11054 : text := " 002231 HEIGHT ASSIGNMENT METHOD                                         CODE TABLE   2231          0            0   4  ".
Definition b11055 : text := " 002232 TRACER CORRELATION METHOD                                        CODE TABLE   2232          0            0   3  ".
Definition b11056 : text := " 002240 TYPE OF TERMODYNAMIC SENSING                                     CODE TABLE   2240          0            0   8  ".
Definition b11057 : text := " 002241 TYPE OF ROCKET MOTOR                                             CODE TABLE   2241          0            0   3  ".
Definition b11058 : text := " 002242 TYPE OF WIND SENSING EQUIPMENT                                   CODE TABLE   2242          0            0   8  ".
Definition b11059 : text := " 002243 TERMODYNAMIC CORRECTION TECHNIQUE                                CODE TABLE   2243          0            0   3  ".
Definition b11060 : text := " 002244 WIND CORRECTION TECHNIQUE                                        CODE TABLE   2244          0            0   3  ".
Definition b11061 : text := " 002245 METHOD OF REDUCING OF DATA                                       CODE TABLE   2245          0            0   4  ".
Definition b11062 : text := " 002251 RADIANCE COMPUTATIONAL METHOD                                    CODE TABLE   2251          0            0   4  ".
Definition b11063 : text := " 004001 YEAR                                                             YEAR                       0            0  12".
Definition b11064 : text := " 004002 MONTH                                                            MONTH                      0            0   4".
Definition b11065 : text := " 004003 DAY                                                              DAY                        0            0   6".
Definition b11066 : text := " 004004 HOUR                                                             HOUR                       0            0   5".
Definition b11067 : text := " 004005 MINUTE                                                           MINUTE                     0            0   6".
Definition b11068 : text := " 004006 SECOND                                                           SECOND                     0            0   6".
Definition b11069 : text := " 004007 SECOND WITHIN MINUTE                                             SECOND                     6            0  26".
Definition b11070 : text := " 004011 TIME INCREMENT                                                   YEAR                       0        -1024  11".
Definition b11071 : text := " 004012 TIME INCREMENT                                                   MONTH                      0        -1024  11".
Definition b11072 : text := " 004013 TIME INCREMENT                                                   DAY                        0        -1024  11".
Definition b11073 : text := " 004014 TIME INCREMENT                                                   HOUR                       0        -1024  11".
Definition b11074 : text := " 004015 TIME INCREMENT                                                   MINUTE                     0        -2048  12".
Definition b11075 : text := " 004016 TIME INCREMENT                                                   SECOND                     0        -4096  13".
Definition b11076 : text := " 004017 REFERENCE TIME PERIOD FOR ACCUMULATED OR EXTREME DATA            MINUTE                     0        -1440  12".
Definition b11077 : text := " 004021 TIME PERIOD OR DISPLACEMENT                                      YEAR                       0        -1024  11".
Definition b11078 : text := " 004022 TIME PERIOD OR DISPLACEMENT                                      MONTH                      0        -1024  11".
Definition b11079 : text := " 004023 TIME PERIOD OR DISPLACEMENT                                      DAY                        0        -1024  11".
Definition b11080 : text := " 004024 TIME PERIOD OR DISPLACEMENT                                      HOUR                       0        -2048  12".
Definition b11081 : text := " 004025 TIME PERIOD OR DISPLACEMENT                                      MINUTE                     0        -2048  12".
Definition b11082 : text := " 004026 TIME PERIOD OR DISPLACEMENT                                      SECOND                     0        -4096  13".
Definition b11083 : text := " 004031 DURATION OF TIME RELATING TO FOLLOWING VALUE                     HOUR                       0            0   8".
Definition b11084 : text := " 004032 DURATION OF TIME RELATING TO FOLLOWING VALUE                     MINUTE                     0            0   6".
Definition b11085 : text := " 004041 TIME DIFFERENCE, UTC-LMT                                         MINUTE                     0        -1440  12".
Definition b11086 : text := " 004043 DAY OF THE YEAR                                                  DAY                        0            0   9".
Definition b11087 : text := " 004051 PRINCIPAL TIME OF DAILY READING OF MAXIMUM TEMPERATURE           HOUR                       0            0   5".
Definition b11088 : text := " 004052 PRINCIPAL TIME OF DAILY READING OF MINIMUM TEMPERATURE           HOUR                       0            0   5".
Definition b11089 : text := " 004053 NUMBER OF DAYS WITH PRECIPITATION EQUAL TO OR MORE THAN 1 MM     NUMERIC                    0            0   6".
Definition b11090 : text := " 004065 SHORT TIME INCREMENT                                             MINUTE                     0         -128   8".
Definition b11091 : text := " 004073 SHORT TIME PERIOD OR DISPLACEMENT                                DAY                        0         -128   8".
Definition b11092 : text := " 004074 SHORT TIME PERIOD OR DISPLACEMENT                                HOUR                       0         -128   8".
Definition b11093 : text := " 004075 SHORT TIME PERIOD OR DISPLACEMENT                                MINUTE                     0         -128   8".
Definition b11094 : text := " 005001 LATITUDE (HIGH ACCURACY)                                         DEGREE                     5     -9000000  25".
Definition b11095 : text := " 005002 LATITUDE (COARSE ACCURACY)                                       DEGREE                     2        -9000  15".
Definition b11096 : text := " 005011 LATITUDE INCREMENT (HIGH ACCURACY)                               DEGREE                     5     -9000000  25".
Definition b11097 : text := " 005012 LATITUDE INCREMENT (COARSE ACCURACY)                             DEGREE                     2        -9000  15".
Definition b11098 : text := " 005021 BEARING OR AZIMUTH                                               DEGREE TRUE                2            0  16".
Definition b11099 : text := " 005022 SOLAR AZIMUTH                                                    DEGREE TRUE                2            0  16".
Definition b11100 : text := " 005030 DIRECTION (SPECTRAL)                                             DEGREE                     0            0  12".
Definition b11101 : text := " 005031 ROW NUMBER                                                       NUMERIC                    0            0  12".
Definition b11102 : text := " 005033 PIXEL SIZE ON HORIZONTAL-1                                       M                         -1            0  16".
Definition b11103 : text := " 005034 ALONG TRACK ROW NUMBER                                           NUMERIC                    0            0  11".
Definition b11104 : text := " 005036 SHIP TRANSECT NUMBER ACCORDING TO SOOP                           NUMERIC                    0            0   7".
Definition b11105 : text := " 005040 ORBIT NUMBER                                                     NUMERIC                    0            0  24".
Definition b11106 : text := " 005041 SCAN LINE NUMBER                                                 NUMERIC                    0            0   8".
Definition b11107 : text := " 005042 CHANNEL NUMBER                                                   NUMERIC                    0            0   6".
Definition b11108 : text := " 005043 FIELD OF VIEW NUMBER                                             NUMERIC                    0            0   8".
Definition b11109 : text := " 005052 CHANNEL NUMBER INCREMENT                                         NUMERIC                    0            0   5".
Definition b11110 : text := " 005053 FIELD OF VIEW NUMBER INCREMENT                                   NUMERIC                    0            0   5".
Definition b11111 : text := " 006001 LONGITUDE (HIGH ACCURACY)                                        DEGREE                     5    -18000000  26".
Definition b11112 : text := " 006002 LONGITUDE (COARSE ACCURACY)                                      DEGREE                     2       -18000  16".
Definition b11113 : text := " 006011 LONGITUDE INCREMENT (HIGH ACCURACY)                              DEGREE                     5    -18000000  26".
Definition b11114 : text := " 006012 LONGITUDE INCREMENT (COARSE ACCURACY)                            DEGREE                     2       -18000  16".
Definition b11115 : text := " 006021 DISTANCE                                                         M                         -1            0  13".
Definition b11116 : text := " 006030 WAVE NUMBER (SPECTRAL)                                           RAD/M                      5            0  13".
Definition b11117 : text := " 006031 COLUMN NUMBER                                                    NUMERIC                    0            0  12".
Definition b11118 : text := " 006033 PIXEL SIZE ON HORIZONTAL-2                                       M                         -1            0  16".
Definition b11119 : text := " 006034 CROSS TRACK CELL NUMBER                                          NUMERIC                    0            0   7".
Definition b11120 : text := " 006040 RADIUS OF CONFIDENCE                                             M                          0            0  13".
Definition b11121 : text := " 007001 HEIGHT OF STATION                                                M                          0         -400  15".
Definition b11122 : text := " 007002 HEIGHT OR ALTITUDE                                               M                         -1          -40  16".
Definition b11123 : text := " 007003 GEOPOTENTIAL                                                     M**2/S**2                 -1         -400  17".
Definition b11124 : text := " 007004 PRESSURE                                                         PA                        -1            0  14".
Definition b11125 : text := " 007005 HEIGHT INCREMENT                                                 M                          0         -400  12".
Definition b11126 : text := " 007006 HEIGHT ABOVE STATION                                             M                          0            0  15".
Definition b11127 : text := " 007008 GEOPOTENTIAL                                                     M**2/S**2                  0       -10000  20".
Definition b11128 : text := " 007009 GEOPOTENTIAL HEIGHT                                              GPM                        0        -1000  17".
Definition b11129 : text := " 007010 FLIGHT LEVEL                                                     M                          0        -1024  16".
Definition b11130 : text := " 007021 ELEVATION                                                        DEGREE                     2        -9000  15".
Definition b11131 : text := " 007022 SOLAR ELEVATION                                                  DEGREE                     2        -9000  15".
Definition b11132 : text := " 007024 SATELLITE ZENITH ANGLE                                           DEGREE                     2        -9000  15".
Definition b11133 : text := " 007025 SOLAR ZENITH ANGLE                                               DEGREE                     2        -9000  15".
Definition b11134 : text := " 007030 HEIGHT OF STATION GROUND ABOVE MEAN SEA LEVEL                    M                          1        -4000  17".
Definition b11135 : text := " 007031 HEIGHT OF BAROMETER ABOVE MEAN SEA LEVEL                         M                          1        -4000  17".
Definition b11136 : text := " 007032 HEIGHT OF SENSOR ABOVE LOCAL GROUND ( OR DECK OF MARINE PLATFORM M                          2            0  16".
Definition b11137 : text := " 007033 HEIGHT OF SENSOR ABOVE WATER SURFACE                             M                          1            0  12".
Definition b11138 : text := " 007061 DEPTH BELOW LAND SURFACE                                         M                          2            0  14".
Definition b11139 : text := " 007062 DEPTH BELOW SEA/WATER SURFACE                                    M                          1            0  17".
Definition b11140 : text := " 007064 HEIGHT ABOVE STATION (SENSOR HEIGHT ARTIFICIALLY CORRECTED) (SEE M                          0            0   4".
Definition b11141 : text := " 007070 DROGUE DEPTH                                                     M                          0            0  10".
Definition b11142 : text := " 008001 VERTICAL SOUNDING SIGNIFICANCE                                   FLAG TABLE 008001          0            0   7".
Definition b11143 : text := " 008002 VERTICAL SIGNIFICANCE (SURFACE OBSERVATIONS)                     CODE TABLE 008002          0            0   6".
Definition b11144 : text := " 008003 VERTICAL SIGNIFICANCE (SATELLITE OBSERVATIONS)                   CODE TABLE 008003          0            0   6".
Definition b11145 : text := " 008004 PHASE OF AIRCRAFT FLIGHT                                         CODE TABLE 008004          0            0   3".
Definition b11146 : text := " 008005 METEOROLOGICAL ATTRIBUTE SIGNIFICANCE                            CODE TABLE 008005          0            0   4".
Definition b11147 : text := " 008006 OZONE VERTICAL SOUNDING SIGNIFICANCE                             FLAG TABLE 008006          0            0   9".
Definition b11148 : text := " 008007 DIMENSIONAL SIGNIFICANCE                                         CODE TABLE 008007          0            0   4".
Definition b11149 : text := " 008008 RADIATION VERTICAL SOUNDING SIGNIFICANCE                         FLAG TABLE 008008          0            0   9".
Definition b11150 : text := " 008009 DETAILED PHASE OF FLIGHT                                         CODE TABLE 008009          0            0   4".
Definition b11151 : text := " 008010 SURFACE QUALIFIER (TEMPERATURE DATA)                             CODE TABLE 008010          0            0   5".
Definition b11152 : text := " 008011 METEOROLOGICAL FEATURE                                           CODE TABLE 008011          0            0   6".
Definition b11153 : text := " 008012 LAND/SEA QUALIFIER                                               CODE TABLE 008012          0            0   2".
Definition b11154 : text := " 008013 DAY/NIGHT QUALIFIER                                              CODE TABLE 008013          0            0   2".
Definition b11155 : text := " 008014 QUALIFIER FOR RUNWAY VISUAL RANGE                                CODE TABLE 008014          0            0   4".
Definition b11156 : text := " 008016 CHANGE QUALIFIER OF A TREND-TYPE FORECAST OR AN AERODROME FORECA CODE TABLE 008016          0            0   3".
Definition b11157 : text := " 008017 QUALIFIER OF THE TIME WHEN THE FORECAST CHANGE IS EXPECTED       CODE TABLE 008017          0            0   2".
Definition b11158 : text := " 008018 SEAWINDS LAND/ICE SURFACE TYPE                                   FLAG TABLE 008018          0            0  17".
Definition b11159 : text := " 008019 QUALIFIER FOR FOLLOWING CENTRE IDENTIFIER                        CODE TABLE 008019          0            0   4".
Definition b11160 : text := " 008020 TOTAL NUMBER OF MISSING ENTITIES (WITH RESPECT TO ACCUMULATION O NUMERIC                    0            0  16".
Definition b11161 : text := " 008021 TIME SIGNIFICANCE                                                CODE TABLE 008021          0            0   5".
Definition b11162 : text := " 008022 TOTAL NUMBER(WITH RESPECT TO ACCUMULATION OR AVERAGE)            NUMERIC                    0            0  16".
Definition b11163 : text := " 008023 FIRST ORDER STATISTICS                                           CODE TABLE 008023          0            0   6".
Definition b11164 : text := " 008024 DIFFERENCE STATISTICS                                            CODE TABLE 008024          0            0   6".
Definition b11165 : text := " 008025 TIME DIFFERENCE QUALIFIER                                        CODE TABLE 008025          0            0   4".
Definition b11166 : text := " 008029 REMOTELY SENSED SURFACE TYPE                                     CODE TABLE 008029          0            0   8".
Definition b11167 : text := " 008030 MANUAL ON CODES (VOLUME I.1 SECTION C CODE TABLE FROM WHICH DATA NUMERIC                    0            0  13".
Definition b11168 : text := " 008031 DATA CATEGORY CREX TABLE A                                       NUMERIC                    0            0   8".
Definition b11169 : text := " 008033 METHOD OF DERIVATION OF PERCENTAGE CONFIDENCE                    CODE TABLE 008033          0            0   7".
Definition b11170 : text := " 008035 TYPE OF MONITORING EXERCISE                                      CODE TABLE 008035          0            0   3".
Definition b11171 : text := " 008036 TYPE OF CENTRE OR STATION PERFORMING MONITORING                  CODE TABLE 008036          0            0   3".
Definition b11172 : text := " 008050 QUALIFIER FOR NUMBER OF MISSING VALUES IN CALCULATION OF STATIST CODE TABLE 008050          0            0   4".
Definition b11173 : text := " 008051 QUALIFIER FOR NUMBER OF MISSING VALUES IN CALCULATION OF STATIST CODE TABLE 008051          0            0   3".
Definition b11174 : text := " 008052 CONDITION FOR WHICH NUMBER OF DAYS OF OCCURRENCE FOLLOWS         CODE TABLE 008052          0            0   5".
Definition b11175 : text := " 008053 DAY OF OCCURRENCE QUALIFIER                                      CODE TABLE 008053          0            0   2".
Definition b11176 : text := " 008059 TIMES OF OBSERVATION USED TO COMPUTE THE REPORTED MEAN VALUES    FLAG TABLE 008059          0            0   6".
Definition b11177 : text := " 008060 SAMPLE SCANNING MODE SIGNIFICANCE                                CODE TABLE 008060          0            0   4".
Definition b11178 : text := " 008070 TOVS/ATOVS PRODUCT QUALIFIER                                     CODE TABLE 008070          0            0   4".
Definition b11179 : text := " 008072 PIXEL(S) TYPE                                                    CODE TABLE 008072          0            0   3".
Definition b11180 : text := " 008074 ALTIMETER ECHO TYPE                                              CODE TABLE 008074          0            0   2".
Definition b11181 : text := " 008075 ASCENDING/DESCENDING ORBIT QUALIFIER                             CODE TABLE 008075          0            0   2".
Definition b11182 : text := " 008076 TYPE OF BAND                                                     CODE TABLE 008076          0            0   6".
Definition b11183 : text := " 008080 QUALIFIER FOR GTSSPP QUALITY FLAG                                CODE TABLE 008080          0            0   6".
Definition b11184 : text := " 008081 TYPE OF EQUIPMENT                                                CODE TABLE   8081          0            0   6".
Definition b11185 : text := " 008082 ARTIFICIAL CORRECTION OF SENSOR HEIGHT TO ANOTHER VALUE          CODE TABLE   8082          0            0   3".
Definition b11186 : text := " 008193 TIME QUALIFIER                                                   CODE TABLE   8193          0            0   6  ".
Definition b11187 : text := " 008194 TOVS/ATOVS PRODUCT QUALIFIER                                     CODE TABLE   8194          0            0   4  ".
Definition b11188 : text := " 008195 DATA TYPE                                                        CODE TABLE   8195          0            0   7  ".
Definition b11189 : text := " 010001 HEIGHT OF LAND SURFACE                                           M                          0         -400  15".
Definition b11190 : text := " 010002 HEIGHT                                                           M                         -1          -40  16".
Definition b11191 : text := " 010003 GEOPOTENTIAL                                                     M**2/S**2                 -1         -400  17".
Definition b11192 : text := " 010004 PRESSURE                                                         PA                        -1            0  14".
Definition b11193 : text := " 010007 HEIGHT                                                           M                          0        -1000  17".
Definition b11194 : text := " 010008 GEOPOTENTIAL                                                     M**2/S**2                  0       -10000  20".
Definition b11195 : text := " 010009 GEOPOTENTIAL HEIGHT                                              GPM                        0        -1000  17".
Definition b11196 : text := " 010010 MINIMUM PRESSURE REDUCED TO MEAN SEA LEVEL                       PA                        -1            0  14".
Definition b11197 : text := " 010011 MAXIMUM PRESSURE REDUCED TO MEAN SEA LEVEL                       PA                        -1            0  14".
Definition b11198 : text := " 010031 IN DIRECTION OF THE NORTH POLE, DISTANCE FROM THE EARTH'S CENTRE M                          2  -1073741824  31".
Definition b11199 : text := " 010032 SATELLITE DISTANCE TO EARTH CENTRE                               M                          1            0  27".
Definition b11200 : text := " 010033 ALTITUDE (PLATFORM TO ELLIPSOID)                                 M                          1            0  27".
Definition b11201 : text := " 010034 EARTH RADIUS                                                     M                          1            0  27".
Definition b11202 : text := " 010040 NUMBER OF RETRIEVED LAYERS                                       NUMERIC                    0            0  10".
Definition b11203 : text := " 010050 STANDARD DEVIATION ALTITUDE                                      M                          2            0  16".
Definition b11204 : text := " 010051 PRESSURE REDUCED TO MEAN SEA LEVEL                               PA                        -1            0  14".
Definition b11205 : text := " 010052 ALTIMETER SETTING (QNH)                                          PA                        -1            0  14".
Definition b11206 : text := " 010060 PRESSURE CHANGE                                                  PA                        -1        -1024  11".
Definition b11207 : text := " 010061 3 HOUR PRESSURE CHANGE                                           PA                        -1         -500  10".
Definition b11208 : text := " 010062 24 HOUR PRESSURE CHANGE                                          PA                        -1        -1000  11".
Definition b11209 : text := " 010063 CHARACTERISTIC OF PRESSURE TENDENCY                              CODE TABLE 010063          0            0   4".
Definition b11210 : text := " 010064 SIGMET CRUISING LEVEL                                            CODE TABLE 010064          0            0   3".
Definition b11211 : text := " 010070 INDICATED AIRCRAFT ALTITUDE                                      M                          0         -400  16".
Definition b11212 : text := " 010080 VIEWING ZENITH ANGLE                                             DEGREE                     2        -9000  15".
Definition b11213 : text := " 010081 ALTITUDE OF COG ABOVE REFERENCE ELLIPSOID                        M                          3            0  31".
Definition b11214 : text := " 010082 INSTANTANEOUS ALTITUDE RATE                                      M/S                        3       -65536  17".
Definition b11215 : text := " 010083 OFF NADIR ANGLE OF THE SATELLITE FROM PLATFORM DATA              DEGREE**2                  2            0  16".
Definition b11216 : text := " 010084 OFF NADIR ANGLE OF THE SATELLITE FROM WAVEFORM DATA              DEGREE**2                  2            0  16".
Definition b11217 : text := " 010085 MEAN SEA SURFACE HEIGHT                                          M                          3      -131072  18".
Definition b11218 : text := " 010086 GEOID HEIGHT                                                     M                          3      -131072  18".
Definition b11219 : text := " 010087 OCEAN DEPTH/LAND ELEVATION                                       M                          1      -131072  18".
Definition b11220 : text := " 010088 TOTAL GEOCENTRIC OCEAN TIDE HEIGHT SOLUTION 1                    M                          3       -32768  16".
Definition b11221 : text := " 010089 TOTAL GEOCENTRIC OCEAN TIDE HEIGHT SOLUTION 2                    M                          3       -32768  16".
Definition b11222 : text := " 010090 LONG PERIOD TIDE HEIGHT                                          M                          3       -32768  16".
Definition b11223 : text := " 010091 TIDAL LOADING HEIGHT                                             M                          3       -32768  16".
Definition b11224 : text := " 010092 SOLID EARTH TIDE HEIGHT                                          M                          3       -32768  16".
Definition b11225 : text := " 010093 GEOCENTRIC POLE TIDE HEIGHT                                      M                          3       -32768  16".
Definition b11226 : text := " 011001 WIND DIRECTION                                                   DEGREE TRUE                0            0   9".
Definition b11227 : text := " 011002 WIND SPEED                                                       M/S                        1            0  12".
Definition b11228 : text := " 011003 U-COMPONENT                                                      M/S                        1        -4096  13".
Definition b11229 : text := " 011004 V-COMPONENT                                                      M/S                        1        -4096  13".
Definition b11230 : text := " 011005 W-COMPONENT                                                      PA/S                       1         -512  10".
Definition b11231 : text := " 011006 W-COMPONENT                                                      M/S                        2        -4096  13".
Definition b11232 : text := " 011010 WIND DIRECTION ASSOCIATED WITH WIND SPEED WHICH FOLLOWS          DEGREE TRUE                0            0   9".
Definition b11233 : text := " 011011 WIND DIRECTION AT 10 M                                           DEGREE TRUE                0            0   9".
Definition b11234 : text := " 011012 WIND SPEED AT 10 M                                               M/S                        1            0  12".
Definition b11235 : text := " 011013 WIND DIRECTION AT 5 M                                            DEGREE TRUE                0            0   9".
Definition b11236 : text := " 011014 WIND SPEED AT 5 M                                                M/S                        1            0  12".
Definition b11237 : text := " 011016 EXTREME COUNTERCLOCKWISE WIND DIRECTION OF A VARIABLE WIND       DEGREE TRUE                0            0   9".
Definition b11238 : text := " 011017 EXTREME CLOCKWISE WIND DIRECTION OF A VARIABLE WIND              DEGREE TRUE                0            0   9".
Definition b11239 : text := " 011019 STEADINESS OF WIND                                               %                          0            0   7".
Definition b11240 : text := " 011021 RELATIVE VORTICITY                                               1/S                        9       -65536  17".
Definition b11241 : text := " 011022 DIVERGENCE                                                       1/S                        9       -65536  17".
Definition b11242 : text := " 011023 VELOCITY POTENTIAL                                               M**2/S                    -2       -65536  17".
Definition b11243 : text := " 011031 DEGREE OF TURBULENCE                                             CODE TABLE 011031          0            0   4".
Definition b11244 : text := " 011032 HEIGHT OF BASE OF TURBULENCE                                     M                         -1          -40  16".
Definition b11245 : text := " 011033 HEIGHT OF TOP OF TURBULENCE                                      M                         -1          -40  16".
Definition b11246 : text := " 011034 VERTICAL GUST VELOCITY                                           M/S                        1        -1024  11".
Definition b11247 : text := " 011035 VERTICAL GUST ACCELERATION                                       M/S**2                     2        -8192  14".
Definition b11248 : text := " 011036 MAXIMUM DERIVED EQUIVALENT VERTICAL GUST SPEED                   M/S                        1            0  10".
Definition b11249 : text := " 011037 TURBULENT INDEX                                                  CODE TABLE 011037          0            0   6".
Definition b11250 : text := " 011038 TIME OF OCCURANCE OF PEAK EDDY DISSIPATION RATE                  CODE TABLE 011038          0            0   5".
Definition b11251 : text := " 011039 EXTENDED TIME OF OCCURENCE OF PEAK EDDY DISSIPATION RATE         CODE TABLE 011039          0            0   6".
Definition b11252 : text := " 011040 MAXIMUM WIND SPEED (MEAN WIND)                                   M/S                        1            0  12".
Definition b11253 : text := " 011041 MAXIMUM WIND SPEED (GUSTS)                                       M/S                        1            0  12".
Definition b11254 : text := " 011042 MAXIMUM WIND SPEED (10 MIN MEAN WIND)                            M/S                        1            0  12".
Definition b11255 : text := " 011043 MAXIMUM WIND GUST DIRECTION                                      DEGREE TRUE                0            0   9".
Definition b11256 : text := " 011044 MEAN WIND DIRECTION FOR SURFACE - 1500 M (5000 FEET)             DEGREE TRUE                0            0   9".
Definition b11257 : text := " 011045 MEAN WIND SPEED FOR SURFACE - 1500 M (5000 FEET)                 M/S                        1            0  12".
Definition b11258 : text := " 011046 MAXIMUM INSTANTANEOUS WIND SPEED                                 M/S                        1            0  12".
Definition b11259 : text := " 011047 MAXIMUM INSTANTANEOUS WIND SPEED OVER 10 MINUTES                 M/S                        1            0  12".
Definition b11260 : text := " 011049 STANDARD DEVIATION OF WIND DIRECTION                             DEGREE TRUE                0            0   9".
Definition b11261 : text := " 011050 STANDARD DEVIATION OF HORIZONTAL WIND SPEED                      M/S                        1            0  12".
Definition b11262 : text := " 011051 STANDARD DEVIATION OF VERTICAL WIND SPEED                        M/S                        1            0   8".
Definition b11263 : text := " 011052 FORMAL UNCERTAINTY IN WIND SPEED                                 M/S                        2            0  13".
Definition b11264 : text := " 011053 FORMAL UNCERTAINTY IN WIND DIRECTION                             DEGREE TRUE                2            0  15".
Definition b11265 : text := " 011061 ABSOLUTE WIND SHEAR IN 1 KM LAYER BELOW                          M/S                        1            0  12".
Definition b11266 : text := " 011062 ABSOLUTE WIND SHEAR IN 1 KM LAYER ABOVE                          M/S                        1            0  12".
Definition b11267 : text := " 011070 DESIGNATOR OF THE RUNWAY AFFECTED BY WIND SHEAR (INCLUDING ALL)  CCITTIA5                   0            0  32".
Definition b11268 : text := " 011071 TURBULENT VERTICAL MOMENTUM FLUX                                 M**2/S**2                  3         -128  14".
Definition b11269 : text := " 011072 TURBULENT VERTICAL BUOYANCY FLUX                                 KM/S                       3         -128  11".
Definition b11270 : text := " 011073 TURBULENT KINETIC ENERGY                                         M**2/S**2                  2        -1024  13".
Definition b11271 : text := " 011074 DISSIPATION ENERGY                                               M**2/S**2                  2        -1024  10".
Definition b11272 : text := " 011075 MEAN TURBULENCE INTENSITY (EDDY DISSIPATION RATE)                M**(2/3)/S                 2            0   8".
Definition b11273 : text := " 011077 REPORTING INTERVAL OR AVERAGING TIME FOR EDDY DISSIPATION RATE   SECOND                     0            0  12".
Definition b11274 : text := " 011081 MODEL WIND DIRECTION AT 10M                                      DEGREE TRUE                2            0  16".
Definition b11275 : text := " 011082 MODEL WIND SPEED AT 10M                                          M/S                        2            0  14".
Definition b11276 : text := " 011095 U COMPONENT OF THE MODEL WIND VECTOR                             M/S                        1        -4096  13".
Definition b11277 : text := " 011096 V COMPONENT OF THE MODEL WIND VECTOR                             M/S                        1        -4096  13".
Definition b11278 : text := " 012001 TEMPERATURE/DRY BULB TEMPERATURE                                 K                          1            0  12".
Definition b11279 : text := " 012002 WET BULB TEMPERATURE                                             K                          1            0  12".
Definition b11280 : text := " 012003 DEW POINT TEMPERATURE                                            K                          1            0  12".
Definition b11281 : text := " 012004 DRY BULB TEMPERATURE AT 2M                                       K                          1            0  12".
Definition b11282 : text := " 012005 WET BULB TEMPERATURE AT 2M                                       K                          1            0  12".
Definition b11283 : text := " 012006 DEW POINT TEMPERATURE AT 2M                                      K                          1            0  12".
Definition b11284 : text := " 012007 VIRTUAL TEMPERATURE                                              K                          1            0  12".
Definition b11285 : text := " 012011 MAXIMUM TEMPERATURE,AT HEIGHT AND OVER PERIOD SPECIFIED          K                          1            0  12".
Definition b11286 : text := " 012012 MINIMUM TEMPERATURE,AT HEIGHT AND OVER PERIOD SPECIFIED          K                          1            0  12".
Definition b11287 : text := " 012013 GROUND MINIMUM TEMPERATURE, PAST 12 HOURS                        K                          1            0  12".
Definition b11288 : text := " 012014 MAXIMUM TEMPERATURE AT 2M, PAST 12 HOURS                         K                          1            0  12".
Definition b11289 : text := " 012015 MINIMUM TEMPERATURE AT 2M, PAST 12 HOURS                         K                          1            0  12".
Definition b11290 : text := " 012016 MAXIMUM TEMPERATURE AT 2M, PAST 24 HOURS                         K                          1            0  12".
Definition b11291 : text := " 012017 MINIMUM TEMPERATURE AT 2M, PAST 24 HOURS                         K                          1            0  12".
Definition b11292 : text := " 012021 MAXIMUM TEMPERATURE AT 2M                                        K                          2            0  16".
Definition b11293 : text := " 012022 MINIMUM TEMPERATURE AT 2M                                        K                          2            0  16".
Definition b11294 : text := " 012030 SOIL TEMPERATURE                                                 K                          1            0  12".
Definition b11295 : text := " 012051 STANDARD DEVIATION TEMPERATURE                                   K                          1            0  10".
Definition b11296 : text := " 012052 HIGHEST DAILY MEAN TEMPERATURE                                   K                          1            0  12".
Definition b11297 : text := " 012053 LOWEST DAILY MEAN TEMPERATURE                                    K                          1            0  12".
Definition b11298 : text := " 012061 SKIN TEMPERATURE                                                 K                          1            0  12".
Definition b11299 : text := " 012062 EQUIVALENT BLACK BODY TEMPERATURE                                K                          1            0  12".
Definition b11300 : text := " 012063 BRIGHTNESS TEMPERATURE                                           K                          1            0  12".
Definition b11301 : text := " 012064 INSTRUMENT TEMPERATURE                                           K                          1            0  12".
Definition b11302 : text := " 012065 STANDARD DEVIATION BRIGHTNESS TEMPERATURE                        K                          1            0  12".
Definition b11303 : text := " 012070 WARM LOAD TEMPERATURE                                            K                          2            0  16".
Definition b11304 : text := " 012071 COLDEST CLUSTER TEMPERATURE                                      K                          1            0  12".
Definition b11305 : text := " 012072 RADIANCE                                                         WM**(-2)SR**(-1)           6            0  31".
Definition b11306 : text := " 012075 SPECTRAL RADIANCE                                                WM**(-3)SR**(-1)          -3            0  16".
Definition b11307 : text := " 012076 RADIANCE                                                         WM**(-2)SR**(-1)           3            0  16".
Definition b11308 : text := " 012101 TEMPERATURE/DRY BULB TEMPERATURE                                 K                          2            0  16".
Definition b11309 : text := " 012102 WET BULB TEMPERATURE                                             K                          2            0  16".
Definition b11310 : text := " 012103 DEW POINT TEMPERATURE                                            K                          2            0  16".
Definition b11311 : text := " 012104 DRY BULB TEMPERATURE AT 2M                                       K                          2            0  16".
Definition b11312 : text := " 012105 WET BULB TEMPERATURE AT 2M                                       K                          2            0  16".
Definition b11313 : text := " 012106 DEW POINT TEMPERATURE AT 2M                                      K                          2            0  16".
Definition b11314 : text := " 012107 VIRTUAL TEMPERATURE                                              K                          2            0  16".
Definition b11315 : text := " 012111 MAXIMUM TEMPERATURE,AT HEIGHT AND OVER PERIOD SPECIFIED          K                          2            0  16".
Definition b11316 : text := " 012112 MINIMUM TEMPERATURE,AT HEIGHT AND OVER PERIOD SPECIFIED          K                          2            0  16".
Definition b11317 : text := " 012113 GROUND MINIMUM TEMPERATURE, PAST 12 HOURS                        K                          2            0  16".
Definition b11318 : text := " 012114 MAXIMUM TEMPERATURE AT 2M, PAST 12 HOURS                         K                          2            0  16".
Definition b11319 : text := " 012115 MINIMUM TEMPERATURE AT 2M, PAST 12 HOURS                         K                          2            0  16".
Definition b11320 : text := " 012116 MAXIMUM TEMPERATURE AT 2M, PAST 24 HOURS                         K                          2            0  16".
Definition b11321 : text := " 012117 MINIMUM TEMPERATURE AT 2M, PAST 24 HOURS                         K                          2            0  16".
Definition b11322 : text := " 012118 MAXIMUM TEMPERATURE AT HEIGHT SPECIFIED PAST 24 HOURS            K                          2            0  16".
Definition b11323 : text := " 012119 MINIMUM TEMPERATURE AT HEIGHT SPECIFIED PAST 24 HOURS            K                          2            0  16".
Definition b11324 : text := " 012130 SOIL TEMPERATURE                                                 K                          2            0  16".
Definition b11325 : text := " 012151 STANDARD DEVIATION OF DAILY MEAN TEMPERATURE                     K                          2            0  12".
Definition b11326 : text := " 012152 HIGHEST DAILY MEAN TEMPERATURE                                   K                          2            0  16".
Definition b11327 : text := " 012153 LOWEST DAILY MEAN TEMPERATURE                                    K                          2            0  16".
Definition b11328 : text := " 012161 SKIN TEMPERATURE                                                 K                          2            0  16".
Definition b11329 : text := " 012162 EQUIVALENT BLACK BODY TEMPERATURE                                K                          2            0  16".
Definition b11330 : text := " 012163 BRIGHTNESS TEMPERATURE                                           K                          2            0  16".
Definition b11331 : text := " 012164 INSTRUMENT TEMPERATURE                                           K                          2            0  16".
Definition b11332 : text := " 012171 COLDEST CLUSTER TEMPERATURE                                      K                          2            0  16".
Definition b11333 : text := " 012180 AVERAGED 12 MICRON BT for ALL CLEAR PIXELS AT NADIR              K                          2            0  16".
Definition b11334 : text := " 012181 AVERAGED 11 MICRON BT for ALL CLEAR PIXELS AT NADIR              K                          2            0  16".
Definition b11335 : text := " 012182 AVERAGED 3.7 MICRON BT for ALL CLEAR PIXELS AT NADIR             K                          2            0  16".
Definition b11336 : text := " 012183 AVERAGED 12 MICRON BT for ALL CLEAR PIXELS, FORWARD VIEW         K                          2            0  16".
Definition b11337 : text := " 012184 AVERAGED 11 MICRON BT for ALL CLEAR PIXELS, FORWARD VIEW         K                          2            0  16".
Definition b11338 : text := " 012185 AVERAGED 3.7 MICRON BT for ALL CLEAR PIXELS, FORWARD VIEW        K                          2            0  16".
Definition b11339 : text := " 012186 MEAN NADIR SEA SURFACE TEMPERATURE                               K                          2            0  16".
Definition b11340 : text := " 012187 MEAN DUAL VIEW SEA SURFACE TEMPERATURE                           K                          2            0  16".
Definition b11341 : text := " 012188 INTERPOLATED 23.8 GHZ BRIGHTNESS T FROM MWR                      K                          2            0  16".
Definition b11342 : text := " 012189 INTERPOLATED 36.5 GHZ BRIGHTNESS T FROM MWR                      K                          2            0  16".
Definition b11343 : text := " 013001 SPECIFIC HUMIDITY                                                KG/KG                      5            0  14".
Definition b11344 : text := " 013002 MIXING RATIO                                                     KG/KG                      5            0  14".
Definition b11345 : text := " 013003 RELATIVE HUMIDITY                                                %                          0            0   7".
Definition b11346 : text := " 013004 VAPOUR PRESSURE                                                  PA                        -1            0  10".
Definition b11347 : text := " 013005 VAPOUR DENSITY                                                   KG/M**3                    3            0   7".
Definition b11348 : text := " 013006 MIXING HEIGHT                                                    M                         -1          -40  16".
Definition b11349 : text := " 013007 MINIMUM RELATIVE HUMIDITY                                        %                          0            0   7".
Definition b11350 : text := " 013008 MAXIMUM RELATIVE HUMIDITY                                        %                          0            0   7".
Definition b11351 : text := " 013011 TOTAL PRECIPITATION/TOTAL WATER EQUIVALENT                       KG/M**2                    1           -1  14".
Definition b11352 : text := " 013012 DEPTH OF FRESH SNOW                                              M                          2           -2  12".
Definition b11353 : text := " 013013 TOTAL SNOW DEPTH                                                 M                          2           -2  16".
Definition b11354 : text := " 013014 RAINFALL/WATER EQUIVALENT OF SNOW (AVERAGE RATE)                 KG/(M**2)S                 4            0  12".
Definition b11355 : text := " 013015 SNOWFALL (AVERAGE RATE)                                          M/S                        7            0  12".
Definition b11356 : text := " 013016 PRECIPITABLE WATER                                               KG/M**2                    0            0   7".
Definition b11357 : text := " 013019 TOTAL PRECIPITATION PAST 1 HOUR                                  KG/M**2                    1           -1  14".
Definition b11358 : text := " 013020 TOTAL PRECIPITATION PAST 3 HOURS                                 KG/M**2                    1           -1  14".
Definition b11359 : text := " 013021 TOTAL PRECIPITATION PAST 6 HOURS                                 KG/M**2                    1           -1  14".
Definition b11360 : text := " 013022 TOTAL PRECIPITATION PAST 12 HOURS                                KG/M**2                    1           -1  14".
Definition b11361 : text := " 013023 TOTAL PRECIPITATION PAST 24 HOURS                                KG/M**2                    1           -1  14".
Definition b11362 : text := " 013031 EVAPOTRANSPIRATION                                               KG/M**2                    0            0   7".
Definition b11363 : text := " 013032 EVAPORATION/EVAPOTRANSPIRATION                                   KG/M**2                    1            0   8".
Definition b11364 : text := " 013033 EVAPORATION/EVAPOTRANSPIRATION                                   KG/M**2                    1            0  10".
Definition b11365 : text := " 013038 SUPERADIABATIC INDICATOR                                         CODE TABLE 013038          0            0   2".
Definition b11366 : text := " 013039 TERRAIN TYPE (ICE/SNOW)                                          CODE TABLE 013039          0            0   3".
Definition b11367 : text := " 013040 SURFACE FLAG                                                     CODE TABLE 013040          0            0   4".
Definition b11368 : text := " 013041 PASQUILL-GIFFORD STABILITY CATEGORY                              CODE TABLE 013041          0            0   4".
Definition b11369 : text := " 013042 PARCEL LIFTED INDEX (TO 500 hPa)                                 K                          0          -20   6".
Definition b11370 : text := " 013043 BEST LIFTED INDEX (TO 500 hPa)                                   K                          0          -20   6".
Definition b11371 : text := " 013051 FREQUENCY GROUP, PRECIPITATION                                   CODE TABLE 013051          0            0   4".
Definition b11372 : text := " 013052 HIGHEST DAILY AMOUNT OF PRECIPITATION                            KG/M**2                    1           -1  14".
Definition b11373 : text := " 013055 INTENSITY OF PRECIPITATION                                       KG/(M**2)S                 4            0   8".
Definition b11374 : text := " 013058 SIZE OF PRECIPITATING ELEMENT                                    M                          4            0   7".
Definition b11375 : text := " 013059 NUMBER OF FLASHES (THUNDERSTORM)                                 NUMERIC                    0            0   7".
Definition b11376 : text := " 013060 TOTAL ACCUMULATED PRECIPITATION                                  KG/M**2                    1          -10  17".
Definition b11377 : text := " 013071 UPSTREAM WATER LEVEL                                             M                          2            0  14".
Definition b11378 : text := " 013072 DOWNSTREAM WATER LEVEL                                           M                          2            0  14".
Definition b11379 : text := " 013073 MAXIMUM WATER LEVEL                                              M                          2            0  14".
Definition b11380 : text := " 013080 WATER PH                                                         pH                         1            0  10".
Definition b11381 : text := " 013081 WATER CONDUCTIVITY                                               SIEMENS/M                  3            0  14".
Definition b11382 : text := " 013082 WATER TEMPERATURE                                                K                          1            0  12".
Definition b11383 : text := " 013083 DISSOLVED OXYGEN                                                 KG/M**3                    6            0  15".
Definition b11384 : text := " 013084 TURBIDITY                                                        LUMEN                      0            0  14".
Definition b11385 : text := " 013085 OXYDATION REDUCTION POTENTIAL (ORP)                              V                          3            0  14".
Definition b11386 : text := " 013090 RADIOMETER WATER VAPOUR CONTENT                                  KG/M**2                    1            0  10   ".
Definition b11387 : text := " 013091 RADIOMETER LIQUID CONTENT                                        KG/M**2                    2            0   8".
Definition b11388 : text := " 013093 CLOUD OPTICAL THICKNESS                                          NUMERIC                    0            0   8".
Definition b11389 : text := " 013095 TOTAL COLUMN WATER VAPOUR                                        KG/M**2                    4            0  19".
Definition b11390 : text := " 013096 MWR WATER VAPOUR CONTENT                                         KG/M**2                    2            0  14".
Definition b11391 : text := " 013097 MWR LIQUID WATER CONTENT                                         KG/M**2                    2            0  14".
Definition b11392 : text := " 013098 INTEGRATED WATER VAPOUR DENSITY                                  KG/M**2                    8            0  30".
Definition b11393 : text := " 013233 FRACTION OF TOTAL PRECIPITATION IN SOLID FORM (SNOW)             M                          4            0  18".
Definition b11394 : text := " 014001 LONG-WAVE RADIATION,INTEGRATED OVER 24 HOURS                     J/M**2                    -3        -2048  12".
Definition b11395 : text := " 014002 LONG-WAVE RADIATION,INTEGRATED OVER PERIOD SPECIFIED             J/M**2                    -3        -2048  12".
Definition b11396 : text := " 014003 SHORT-WAVE RADIATION,INTEGRATED OVER 24 HOURS                    J/M**2                    -3        -2048  12".
Definition b11397 : text := " 014004 SHORT-WAVE RADIATION,INTEGRATED OVER PERIOD SPECIFIED            J/M**2                    -3        -2048  12".
Definition b11398 : text := " 014011 NET LONG-WAVE RADIATION,INTEGRATED OVER 24 HOURS                 J/M**2                    -3        -2048  12".
Definition b11399 : text := " 014012 NET LONG-WAVE RADIATION,INTEGRATED OVER PERIOD SPECIFIED         J/M**2                    -3        -2048  12".
Definition b11400 : text := " 014013 NET SHORT-WAVE RADIATION,INTEGRATED OVER 24 HOURS                J/M**2                    -3        -2048  12".
Definition b11401 : text := " 014014 NET SHORT-WAVE RADIATION,INTEGRATED OVER PERIOD SPECIFIED        J/M**2                    -3        -2048  12".
Definition b11402 : text := " 014015 NET RADIATION INTEGRATED OVER 24HOURS                            J/M**2                    -4       -16384  15".
Definition b11403 : text := " 014016 NET RADIATION,INTEGRATED OVER PERIOD SPECIFIED                   J/M**2                    -4       -16384  15".
Definition b11404 : text := " 014017 INSTANTANEOUS LONG-WAVE RADIATION                                J/M**2                    -3        -2048  12".
Definition b11405 : text := " 014018 INSTANTANEOUS SHORT-WAVE RADIATION                               J/M**2                    -3        -2048  12".
Definition b11406 : text := " 014019 SURFACE ALBEDO                                                   %                          0            0   7".
Definition b11407 : text := " 014020 GLOBAL SOLAR RADIATION INTEGRATED OVER 24 HOURS                  J/M**2                    -4            0  15".
Definition b11408 : text := " 014021 GLOBAL RADIATION INTEGRATED OVERPERIOD SPECIFIED                 J/M**2                    -4            0  15".
Definition b11409 : text := " 014022 DIFFUSE SOLAR RADIATION INTEGRATED OVER 24 HOURS                 J/M**2                    -4            0  15".
Definition b11410 : text := " 014023 DIFFUSE SOLAR RADIATION INTEGRATED OVER PERIOD SPECIFIED         J/M**2                    -4            0  15".
Definition b11411 : text := " 014024 DIRECT SOLAR RADIATION INTEGRATED OVER 24 HOURS                  J/M**2                    -4            0  15".
Definition b11412 : text := " 014025 DIRECT SOLAR RADIATION INTEGRATED OVER PERIOD SPECIFIED          J/M**2                    -4            0  15".
Definition b11413 : text := " 014026 ALBEDO AT THE TOP OF CLOUD                                       %                          0            0   7".
Definition b11414 : text := " 014027 ALBEDO                                                           %                          0            0   7".
Definition b11415 : text := " 014028 GLOBAL SOLAR RADIATION INTEGRATED OVERPERIOD SPECIFIED           J/M**2                    -2            0  16".
Definition b11416 : text := " 014029 DIFFUSE SOLAR RADIATION INTEGRATED OVERPERIOD SPECIFIED          J/M**2                    -2            0  16".
Definition b11417 : text := " 014030 DIRECT SOLAR RADIATION INTEGRATED OVERPERIOD SPECIFIED           J/M**2                    -2            0  16".
Definition b11418 : text := " 014031 TOTAL SUNSHINE                                                   MINUTE                     0            0  11".
Definition b11419 : text := " 014032 TOTAL SUNSHINE                                                   HOUR                       0            0  10".
Definition b11420 : text := " 014033 TOTAL SUNSHINE                                                   %                          0            0   9".
Definition b11421 : text := " 014034 SUNSHINE OVER PERIOD SPECIFIED                                   MINUTE                     0            0  11".
Definition b11422 : text := " 014042 BIDIRECTIONAL REFLECTANCE                                        %                          0            0   7".
Definition b11423 : text := " 014045 CHANNEL RADIANCE                                                 (W/M**2)*(1/SR)*CM         0            0  11".
Definition b11424 : text := " 014050 EMISSIVITY                                                       %                          1            0  10".
Definition b11425 : text := " 014051 DIRECT SOLAR RADIATION INTEGRATED OVER LAST HOUR                 J/M**2                    -3            0  14".
Definition b11426 : text := " 014055 SOLAR ACTIVITY INDEX                                             NUMERIC                    0       -32768  16".
Definition b11427 : text := " 015001 OZONE                                                            DOBSON                     0            0  10".
Definition b11428 : text := " 015002 AIR MASS (SLANT PATH AT 22 KM)                                   NUMERIC                    2            0  10".
Definition b11429 : text := " 015003 MEASURED OZONE PARTIAL PRESSURE (SOUNDING)                       PA                         4            0   9".
Definition b11430 : text := " 015004 OZONE SOUNDING CORRECTION FACTOR                                 NUMERIC                    3            0  11".
Definition b11431 : text := " 015005 OZONE P                                                          DU                         0            0  10".
Definition b11432 : text := " 015011 LOG 10 OF INTEGRATED ELECTRON DENSITY                            LOG(1/M**2)                3        14000  13".
Definition b11433 : text := " 015015 MAXIMUM IMAGE SPECTRAL COMPONENT BEFORE NORMALIZATION            NUMERIC                    0            0  31".
Definition b11434 : text := " 015020 INTEGRATED OZONE DENSITY                                         KG/M**2                    8            0  21".
Definition b11435 : text := " 015031 ATMOSPHERIC PATH DELAY IN SATELLITE SIGNAL                       M                          4        10000  15".
Definition b11436 : text := " 015032 ESTIMATED ERROR IN ATMOSPHERIC PATH DELAY                        M                          4            0  10".
Definition b11437 : text := " 015033 DIFFERENCE IN PATH DELAYS FOR LIMB VIEWS AT EXTREME OF SCAN      M                          5       -10000  15".
Definition b11438 : text := " 015034 ESTIMATED ERROR IN PATH DELAY DIFFERENCE                         M                          5            0  14".
Definition b11439 : text := " 015035 COMPONENT OF ZENITH PATH DELAY DUE TO WATER VAPOUR               M                          4            0  14".
Definition b11440 : text := " 019001 TYPE OF SYNOPTIC FEATURE                                         CODE TABLE 019001          0            0   6".
Definition b11441 : text := " 019002 EFFECTIVE RADIUS OF FEATURE                                      M                         -2            0  12".
Definition b11442 : text := " 019003 WIND SPEED THRESHOLD                                             M/S                        0            0   8".
Definition b11443 : text := " 019004 EFFECTIVE RADIUS WITH RESPECT TO WIND SPEEDS ABOVE THRESHOLD     M                         -2            0  12".
Definition b11444 : text := " 019005 DIRECTION OF MOTION OF FEATURE                                   DEGREE TRUE                0            0   9".
Definition b11445 : text := " 019006 SPEED OF MOTION OF FEATURE                                       M/S                        2            0  14".
Definition b11446 : text := " 019007 EFFECTIVE RADIUS OF FEATURE                                      M                         -3            0  12".
Definition b11447 : text := " 019008 VERTICAL EXTENT OF CIRCULATION                                   CODE TABLE 019008          0            0   3".
Definition b11448 : text := " 019009 EFFECTIVE RADIUS WITH RESPECT TO WIND SPEEDS ABOVE THRESHOLD     M                         -3            0  12".
Definition b11449 : text := " 019010 METHOD FOR TRACKING THE CENTRE OF SYNOPTIC FEATURE               CODE TABLE 019010          0            0   4".
Definition b11450 : text := " 020001 HORIZONTAL VISIBILITY                                            M                         -1            0  13".
Definition b11451 : text := " 020002 VERTICAL VISIBILITY                                              M                         -1            0   7".
Definition b11452 : text := " 020003 PRESENT WEATHER                                                  CODE TABLE 020003          0            0   9".
Definition b11453 : text := " 020004 PAST WEATHER (1)                                                 CODE TABLE 020004          0            0   5".
Definition b11454 : text := " 020005 PAST WEATHER (2)                                                 CODE TABLE 020005          0            0   5".
Definition b11455 : text := " 020008 CLOUD DISTRIBUTION FOR AVIATION                                  CODE TABLE 020008          0            0   5".
Definition b11456 : text := " 020009 GENERAL WEATHER INDICATOR (TAF/METAR)                            CODE TABLE 020009          0            0   4".
Definition b11457 : text := " 020010 CLOUD COVER (TOTAL)                                              %                          0            0   7".
Definition b11458 : text := " 020011 CLOUD AMOUNT                                                     CODE TABLE 020011          0            0   4".
Definition b11459 : text := " 020012 CLOUD TYPE                                                       CODE TABLE 020012          0            0   6".
Definition b11460 : text := " 020013 HEIGHT OF BASE OF CLOUD                                          M                         -1          -40  11".
Definition b11461 : text := " 020014 HEIGHT OF TOP OF CLOUD                                           M                         -1          -40  11".
Definition b11462 : text := " 020015 PRESSURE AT BASE OF CLOUD                                        PA                        -1            0  14".
Definition b11463 : text := " 020016 PRESSURE AT TOP OF CLOUD                                         PA                        -1            0  14".
Definition b11464 : text := " 020017 CLOUD TOP DESCRIPTION                                            CODE TABLE 020017          0            0   4".
Definition b11465 : text := " 020018 TENDENCY OF RUNWAY VISUAL RANGE                                  CODE TABLE 020018          0            0   2".
Definition b11466 : text := " 020019 SIGNIFICANT PRESENT OR FORECAST WEATHER                          CCITTIA5                   0            0  72".
Definition b11467 : text := " 020020 SIGNIFICANT RECENT WEATHER PHENOMENA                             CCITTIA5                   0            0  32".
Definition b11468 : text := " 020021 TYPE OF PRECIPITATION                                            FLAG TABLE 020021          0            0  30".
Definition b11469 : text := " 020022 CHARACTER OF PRECIPITATION                                       CODE TABLE 020022          0            0   4".
Definition b11470 : text := " 020023 OTHER WEATHER PHENOMENA                                          FLAG TABLE 020023          0            0  18".
Definition b11471 : text := " 020024 INTENSITY OF PHENOMENA                                           CODE TABLE 020024          0            0   3".
Definition b11472 : text := " 020025 OBSCURATION                                                      FLAG TABLE 020025          0            0  21".
Definition b11473 : text := " 020026 CHARACTER OF OBSCURATION                                         CODE TABLE 020026          0            0   4".
Definition b11474 : text := " 020027 PHENOMENA OCCURRENCE                                             FLAG TABLE 020027          0            0   9".
Definition b11475 : text := " 020028 EXPECTED CHANGE IN INTENSITY                                     CODE TABLE 020028          0            0   3".
Definition b11476 : text := " 020029 RAIN FLAG                                                        CODE TABLE 020029          0            0   2".
Definition b11477 : text := " 020031 ICE DEPOSIT (THICKNESS)                                          M                          2            0   7".
Definition b11478 : text := " 020032 RATE OF ICE ACCRETION                                            CODE TABLE 020032          0            0   3".
Definition b11479 : text := " 020033 CAUSE OF ICE ACCRETION                                           FLAG TABLE 020033          0            0   4".
Definition b11480 : text := " 020034 SEA ICE CONCENTRATION                                            CODE TABLE 020034          0            0   5".
Definition b11481 : text := " 020035 AMOUNT AND TYPE OF ICE                                           CODE TABLE 020035          0            0   4".
Definition b11482 : text := " 020036 ICE SITUATION                                                    CODE TABLE 020036          0            0   5".
Definition b11483 : text := " 020037 ICE DEVELOPMENT                                                  CODE TABLE 020037          0            0   5".
Definition b11484 : text := " 020038 BEARING OF ICE EDGE                                              DEGREE TRUE                0            0  12".
Definition b11485 : text := " 020039 ICE DISTANCE                                                     M                         -1            0  13".
Definition b11486 : text := " 020041 AIRFRAME ICING                                                   CODE TABLE 020041          0            0   4".
Definition b11487 : text := " 020042 AIRFRAME ICING PRESENT                                           CODE TABLE 020042          0            0   2".
Definition b11488 : text := " 020043 PEAK LIQUID WATER CONTENT                                        KG/M**3                    4            0   7".
Definition b11489 : text := " 020044 AVERAGE LIQUID WATER CONTENT                                     KG/M**3                    4            0   7".
Definition b11490 : text := " 020045 SUPERCOOLED LARGE DROPLET (SDL) CONDITIONS                       CODE TABLE 020045          0            0   2".
Definition b11491 : text := " 020051 AMOUNT OF LOW CLOUDS                                             %                          0            0   7".
Definition b11492 : text := " 020052 AMOUNT OF MIDDLE CLOUDS                                          %                          0            0   7".
Definition b11493 : text := " 020053 AMOUNT OF HIGH CLOUDS                                            %                          0            0   7".
Definition b11494 : text := " 020061 RUNWAY VISUAL RANGE (RVR)                                        M                          0            0  12".
Definition b11495 : text := " 020062 STATE OF THE GROUND (WITH OR WITHOUT SNOW)                       CODE TABLE 020062          0            0   5".
Definition b11496 : text := " 020063 SPECIAL PHENOMENA                                                CODE TABLE 020063          0            0  10".
Definition b11497 : text := " 020065 SNOW COVER                                                       %                          0            0   7".
Definition b11498 : text := " 020070 MINIMUM NUMBER OF ATMOSPHERICS                                   NUMERIC                    0            0   7".
Definition b11499 : text := " 020071 ACCURACY OF FIX AND RATE OF ATMOSPHERICS                         CODE TABLE 020071          0            0   4".
Definition b11500 : text := " 020081 CLOUD AMOUNT IN SEGMENT                                          %                          0            0   7".
Definition b11501 : text := " 020082 AMOUNT SEGMENT CLOUD FREE                                        %                          0            0   7".
Definition b11502 : text := " 020090 SPECIAL CLOUDS                                                   CODE TABLE 020090          0            0   4".
Definition b11503 : text := " 021001 HORIZONTAL REFLECTIVITY                                          dB                         0          -64   7".
Definition b11504 : text := " 021002 VERTICAL REFLECTIVITY                                            dB                         0          -64   7".
Definition b11505 : text := " 021003 DIFFERENTIAL REFLECTIVITY                                        dB                         1           -5   7".
Definition b11506 : text := " 021005 LINEAR DEPOLARISATION RATIO                                      dB                         0          -65   6".
Definition b11507 : text := " 021006 CIRCULAR DEPOLARISATION RATIO                                    dB                         0          -65   6".
Definition b11508 : text := " 021011 DOPPLER MEAN VELOCITY IN X-DIRECTION                             M/S                        0         -128   8".
Definition b11509 : text := " 021012 DOPPLER MEAN VELOCITY IN Y-DIRECTION                             M/S                        0         -128   8".
Definition b11510 : text := " 021013 DOPPLER MEAN VELOCITY IN Z-DIRECTION(VZ)                         M/S                        0         -128   8".
Definition b11511 : text := " 021014 DOPPLER MEAN VELOCITY RADIAL                                     M/S                        1        -4096  13".
Definition b11512 : text := " 021017 DOPPLER VELOCITY SPECTRAL WIDTH                                  M/S                        1            0   8".
Definition b11513 : text := " 021021 ECHO TOPS                                                        M                         -3            0   4".
Definition b11514 : text := " 021030 SIGNAL TO NOISE RATIO                                            dB                         0          -32   8".
Definition b11515 : text := " 021031 VERTICALLY INTEGRATED LIQUID-WATER CONTENT                       KG/M**2                    0            0   7".
Definition b11516 : text := " 021036 RADAR RAINFALL INTENSITY                                         M/S                        7            0  12".
Definition b11517 : text := " 021041 BRIGHT-BAND HEIGHT                                               M                         -2            0   8".
Definition b11518 : text := " 021051 SIGNAL POWER ABOVE 1 mW                                          dB                         0         -256   8".
Definition b11519 : text := " 021062 BACKSCATTER                                                      dB                         2        -5000  13".
Definition b11520 : text := " 021063 RADIOMETRIC RESOLUTION (NOISE VALUE)                             %                          1            0  10".
Definition b11521 : text := " 021064 CLUTTER NOISE ESTIMATE                                           NUMERIC                    0            0   8".
Definition b11522 : text := " 021065 MISSING PACKET COUNTER                                           NUMERIC                    0         -127   8".
Definition b11523 : text := " 021066 WAVE SCATTEROMETER PRODUCT CONFIDENCE                            FLAG TABLE 021066          0            0  12".
Definition b11524 : text := " 021067 WIND PRODUCT CONFIDENCE DATA                                     FLAG TABLE 021067          0            0  13".
Definition b11525 : text := " 021068 RADAR ALTIMETER PRODUCT CONFIDENCE DATA                          FLAG TABLE 021068          0            0   8".
Definition b11526 : text := " 021069 SST PRODUCT CONFIDENCE DATA                                      FLAG TABLE 021069          0            0  10".
Definition b11527 : text := " 021070 SST PRODUCT CONFIDENCE DATA (SADIST 2)                           FLAG TABLE 021070          0            0  23".
Definition b11528 : text := " 021071 PEAKINESS                                                        NUMERIC                    0            0  16".
Definition b11529 : text := " 021072 SATELLITE ALTIMETER CALIBRATION STATUS                           FLAG TABLE 021072          0            0   4".
Definition b11530 : text := " 021073 SATELLITE ALTIMETER INSTRUMENT MODE                              FLAG TABLE 021073          0            0   9".
Definition b11531 : text := " 021075 IMAGE SPECTRUM INTENSITY                                         NUMERIC                    0            0   8".
Definition b11532 : text := " 021076 REPRESENTATION OF INTENSITIES                                    CODE TABLE 021076          0            0   3".
Definition b11533 : text := " 021077 ALTITUDE CORRECTION (IONOSPHERE)                                 M                          3            0  14".
Definition b11534 : text := " 021078 ALTITUDE CORRECTION (DRY TROPOSPHERE)                            M                          3            0   9".
Definition b11535 : text := " 021079 ALTITUDE CORRECTION (WET TROPOSPHERE)                            M                          3         2000  10".
Definition b11536 : text := " 021080 ALTITUDE CORRECTION (CALIBRATION CONSTANT)                       M                          3            0  11".
Definition b11537 : text := " 021081 OPEN LOOP CORRECTION (HEIGHT-TIME LOOP)                          M                          3            0  10".
Definition b11538 : text := " 021082 OPEN LOOP CORRECTION (AUTO GAIN CONTROL)                         dB                         3        -3000  14".
Definition b11539 : text := " 021083 WARM TARGET CALIBRATION                                          NUMERIC                    0            0  16".
Definition b11540 : text := " 021084 COLD TARGET CALIBRATION                                          NUMERIC                    0            0  16".
Definition b11541 : text := " 021085 ATSR SEA SURFACE TEMPERATURE ACROSS-TRACK BAND NUMBER            NUMERIC                    0            0   4".
Definition b11542 : text := " 021086 NUMBER OF PIXELS IN NADIR ONLY, AVERAGE                          NUMERIC                    0            0   9".
Definition b11543 : text := " 021087 NUMBER OF PIXELS IN DUAL VIEW, AVERAGE                           NUMERIC                    0            0   9".
Definition b11544 : text := " 021091 RADAR SIGNAL DOPPLER SPECTRUM 0th MOMENT                         dB                         0         -100   8".
Definition b11545 : text := " 021092 RASS SIGNAL DOPPLER SPECTRUM 0th MOMENT                          dB                         0         -100   8".
Definition b11546 : text := " 021101 NUMBER OF VECTOR AMBIGUITIES                                     NUMERIC                    0            0   3".
Definition b11547 : text := " 021102 INDEX OF SELECTED WIND VECTOR                                    NUMERIC                    0            0   3".
Definition b11548 : text := " 021103 TOTAL NUMBER OF SIGMA-0 MEASUREMENTS                             NUMERIC                    0            0   5".
Definition b11549 : text := " 021104 LIKELIHOOD COMPUTED FOR SOLUTION                                 NUMERIC                    3       -30000  15".
Definition b11550 : text := " 021105 NORMALIZED RADAR CROSS-SECTION                                   dB                         2       -10000  14".
Definition b11551 : text := " 021106 KP VARIANCE COEFFICIENT (ALPHA)                                  NUMERIC                    3            0  14".
Definition b11552 : text := " 021107 KP VARIANCE COEFFICIENT (BETA)                                   NUMERIC                    8            0  16".
Definition b11553 : text := " 021109 SEAWINDS WIND VECTOR CELL QUALITY                                FLAG TABLE 021109          0            0  17".
Definition b11554 : text := " 021110 NUMBER OF INNER-BEAM SIGMA-0 (FORWARD OF SATELLITE)              NUMERIC                    0            0   6".
Definition b11555 : text := " 021111 NUMBER OF OUTER-BEAM SIGMA-0 (FORWARD OF SATELLITE)              NUMERIC                    0            0   6".
Definition b11556 : text := " 021112 NUMBER OF INNER-BEAM SIGMA-0 (AFT OF SATELLITE)                  NUMERIC                    0            0   6".
Definition b11557 : text := " 021113 NUMBER OF OUTER-BEAM SIGMA-0 (AFT OF SATELLITE)                  NUMERIC                    0            0   6".
Definition b11558 : text := " 021114 KP VARIANCE COEFFICENT (GAMMA)                                   dB                         3      -140000  18".
Definition b11559 : text := " 021115 SEAWINDS SIGMA-0 QUALITY                                         FLAG TABLE 021115          0            0  17".
Definition b11560 : text := " 021116 SEAWINDS SIGMA-0 MODE                                            FLAG TABLE 021116          0            0  17".
Definition b11561 : text := " 021117 SIGMA-0 VARIANCE QUALITY CONTROL                                 NUMERIC                    2            0  16".
Definition b11562 : text := " 021118 ATTENUATION CORRECTION ON SIGMA-0                                dB                         2       -10000  14".
Definition b11563 : text := " 021119 WIND SCATTEROMETER GEOPHYSICAL MODEL FUNCTION                    CODE TABLE 021119          0            0   6".
Definition b11564 : text := " 021120 PROBABILITY OF RAIN                                              NUMERIC                    3            0  10".
Definition b11565 : text := " 021121 SEAWIND NOF RAIN INDEX                                           NUMERIC                    0            0   8".
Definition b11566 : text := " 021122 ATTENUATION CORRECTION ON SIGMA-0 (FROM tB)                      dB                         2       -10000  14".
Definition b11567 : text := " 021123 SEAWINDS NORMALIZED RADAR CROSS SECTION                          dB                         2       -30000  15".
Definition b11568 : text := " 021128 NUMBER OF VALID POINTS PER SECOND USED TO DERIVE PREVIOUS PARAME NUMERIC                    0            0   8".
Definition b11569 : text := " 021130 SPECTRUM TOTAL ENERGY                                            NUMERIC                    6            0  28".
Definition b11570 : text := " 021131 SPECTRUM MAX ENERGY                                              NUMERIC                    6            0  28".
Definition b11571 : text := " 021132 DIRECTION OF SPECTRUM MAX ON HIGHER RESOLUTION GRID              DEGREES                    3            0  19".
Definition b11572 : text := " 021133 WAVELENGHT OF SPECTRUM MAX ON HIGHER RESOLUTION GRID             M                          3            0  29".
Definition b11573 : text := " 021134 RANGE RESOLUTION OF CROSS COVARIANCE SPECTRUM                    RAD/M                      3            0  19".
Definition b11574 : text := " 021135 REAL PART OF CROSS SPECTRA POLAR GRID NUMBER OF BINS             NUMERIC                    3      -524288  20".
Definition b11575 : text := " 021136 IMAGINARY PART OF CROSS SPECTRA POLAR GRID NUMBER OF BINS        NUMERIC                    3      -524288  20".
Definition b11576 : text := " 021137 KU BAND CORRECTED OCEAN BACKSCATTER COEFFICIENT                  DB                         2       -32768  16".
Definition b11577 : text := " 021138 STD KU BAND CORRECTED OCEAN BACKSCATTER COEFFICIENT              DB                         2       -32768  16".
Definition b11578 : text := " 021139 KU BAND NET INSTRUMENTAL CORRECTION FOR ACG                      DB                         2        -2048  12".
Definition b11579 : text := " 021140 S  BAND CORRECTED OCEAN BACKSCATTER COEFFICIENT                  DB                         2       -32768  16".
Definition b11580 : text := " 021141 STD S  BAND CORRECTED OCEAN BACKSCATTER COEFFICIENT              DB                         2       -32768  16".
Definition b11581 : text := " 021142 S  BAND NET INSTRUMENTAL CORRECTION FOR ACG                      DB                         2        -1024  11".
Definition b11582 : text := " 021143 KU BAND RAIN ATTENUATION                                         DB                         2  -1073741824  31".
Definition b11583 : text := " 021144 ALTIMETER RAIN FLAG                                              FLAG TABLE 021144          0            0   2".
Definition b11584 : text := " 022001 DIRECTION OF WAVES                                               DEGREE TRUE                0            0   9".
Definition b11585 : text := " 022002 DIRECTION OF WIND WAVES                                          DEGREE TRUE                0            0   9".
Definition b11586 : text := " 022003 DIRECTION OF SWELL WAVES                                         DEGREE TRUE                0            0   9".
Definition b11587 : text := " 022004 DIRECTION OF CURRENT                                             DEGREE TRUE                0            0   9".
Definition b11588 : text := " 022011 PERIOD OF WAVES                                                  S                          0            0   6".
Definition b11589 : text := " 022012 PERIOD OF WIND WAVES                                             S                          0            0   6".
Definition b11590 : text := " 022013 PERIOD OF SWELL WAVES                                            S                          0            0   6".
Definition b11591 : text := " 022021 HEIGHT OF WAVES                                                  M                          1            0  10".
Definition b11592 : text := " 022022 HEIGHT OF WIND WAVES                                             M                          1            0  10".
Definition b11593 : text := " 022023 HEIGHT OF SWELL WAVES                                            M                          1            0  10".
Definition b11594 : text := " 022025 STANDARD DEVIATION WAVE HEIGHT                                   M                          2            0  10".
Definition b11595 : text := " 022026 STANDARD DEVIATION OF SIGNIFICANT WAVE HEIGHT                    M                          2            0  10".
Definition b11596 : text := " 022031 SPEED OF CURRENT                                                 M/S                        2            0  13".
Definition b11597 : text := " 022035 TIDAL ELEVATION WITH RESPECT TO LOCAL CHART DATUM                M                          2            0  14".
Definition b11598 : text := " 022036 METEOROLOGICAL RESIDUAL TIDAL ELEVATION (SURGE OR OFFSET)        M                          2            0  14".
Definition b11599 : text := " 022037 TIDAL ELEVATION WITH RESPECT TO NATIONAL LAND DATUM              M                          3       -10000  15".
Definition b11600 : text := " 022038 TIDAL ELEVATION WITH RESPECT TO LOCAL CHART DATUM                M                          3       -10000  15".
Definition b11601 : text := " 022039 METEOROLOGICAL RESIDUAL TIDAL ELEVATION (SURGE OR OFFSET)        M                          3        -5000  12".
Definition b11602 : text := " 022040 METEOROLOGICAL RESIDUAL TIDAL ELEVATION (SURGE OR OFFSET)        M                          3        -5000  14".
Definition b11603 : text := " 022041 SEA-SURFACE TEMPERATURE(15-DAY RUNNING MEAN)                     K                          1            0  12".
Definition b11604 : text := " 022042 SEA/WATER TEMPERATURE                                            K                          1            0  12".
Definition b11605 : text := " 022043 SEA/WATER TEMPERATURE                                            K                          2            0  15".
Definition b11606 : text := " 022044 SOUND VELOCITY                                                   M/S                        1            0  14".
Definition b11607 : text := " 022045 SEA/WATER TEMPERATURE                                            K                          3            0  19".
Definition b11608 : text := " 022050 STANDARD DEVIATION SEA SURFACE TEMPERATURE                       K                          2            0   8".
Definition b11609 : text := " 022055 FLOAT CYCLE NUMBER                                               NUMERIC                    0            0  10".
Definition b11610 : text := " 022056 DIRECTION OF PROFILE                                             CODE TABLE 022056          0            0   2".
Definition b11611 : text := " 022060 LAGRANGIAN DRIFTER DROGUE STATUS                                 CODE TABLE 022060          0            0   3".
Definition b11612 : text := " 022061 STATE OF THE SEA                                                 CODE TABLE 022061          0            0   4".
Definition b11613 : text := " 022062 SALINITY                                                         PART PER THOUSAND          2            0  14".
Definition b11614 : text := " 022063 TOTAL WATER DEPTH                                                M                          0            0  14".
Definition b11615 : text := " 022064 SALINITY                                                         PART PER THOUSAND          3            0  17".
Definition b11616 : text := " 022065 WATER PRESSURE                                                   PA                        -3            0  17".
Definition b11617 : text := " 022066 WATER CONDUCTIVITY                                               S M-1                      6            0  26".
Definition b11618 : text := " 022067 INSTRUMENT TYPE FOR WATER TEMPERATURE PROFILE MEASUREMENT        CODE TABLE 022067          0            0  10".
Definition b11619 : text := " 022068 WATER TEMPERATURE PROFILE RECORDER TYPES                         CODE TABLE 022068          0            0   7".
Definition b11620 : text := " 022070 SIGNIFICANT WAVE HEIGHT                                          M                          2            0  13".
Definition b11621 : text := " 022071 SPECTRAL PEAK WAVE PERIOD                                        S                          1            0   9".
Definition b11622 : text := " 022072 SPECTRAL PEAK WAVE LENGTH                                        M                          0            0  13".
Definition b11623 : text := " 022073 MAXIMUM WAVE HEIGHT                                              M                          2            0  13".
Definition b11624 : text := " 022074 AVERAGE WAVE PERIOD                                              S                          1            0   9".
Definition b11625 : text := " 022075 AVERAGE WAVE LENGTH                                              M                          0            0  13".
Definition b11626 : text := " 022076 DIRECTION FROM WHICH DOMINANT WAVES ARE COMING                   DEGREE TRUE                0            0   9".
Definition b11627 : text := " 022077 DIRECTIONAL SPREAD OF DOMINANT WAVE                              DEGREE                     0            0   9".
Definition b11628 : text := " 022078 DURATION OF WAVE RECORD                                          S                          0            0  12".
Definition b11629 : text := " 022079 LENGTH OF WAVE RECORD                                            M                          0            0  16".
Definition b11630 : text := " 022080 WAVEBAND CENTRAL FREQUENCY                                       Hz                         3            0  10".
Definition b11631 : text := " 022081 WAVEBAND CENTRAL WAVE NUMBER                                     1/M                        5            0  13".
Definition b11632 : text := " 022082 MAXIMUM NON-DIRECTIONAL SPECTRAL WAVE DENSITY                    M**2S                      2            0  20".
Definition b11633 : text := " 022083 MAXIMUM NON-DIRECTIONAL SPECTRAL WAVE NUMBER                     M**3                       2            0  20".
Definition b11634 : text := " 022084 BAND CONTAINING MAXIMUM NON-DIRECTIONAL SPECTRAL WAVE DENSITY    NUMERIC                    0            0   7".
Definition b11635 : text := " 022085 SPECTRAL WAVE DENSITY RATIO                                      NUMERIC                    0            0   7".
Definition b11636 : text := " 022086 MEAN DIRECTION FROM WHICH WAVES ARE COMING                       DEGREE TRUE                0            0   9".
Definition b11637 : text := " 022087 PRINCIPAL DIRECTION FROM WHICH WAVES ARE COMING                  DEGREE TRUE                0            0   9".
Definition b11638 : text := " 022088 FIRST NORMALIZED POLAR COORDINATE FROM FOURIER COEFFICIENTS      NUMERIC                    2            0   7".
Definition b11639 : text := " 022089 SECOND NORMALIZED POLAR COORDINATE FROM FOURIER COEFFICIENTS     NUMERIC                    2            0   7".
Definition b11640 : text := " 022090 NON-DIRECTIONAL SPECTRAL ESTIMATE BY WAVE FREQUENCY              M**2S                      2            0  20".
Definition b11641 : text := " 022091 NON-DIRECTIONAL SPECTRAL ESTIMATE BY WAVE NUMBER                 M**3                       2            0  20".
Definition b11642 : text := " 022092 DIRECTIONAL SPECTRAL ESTIMATE BY WAVE FREQUENCY                  M**2S/RAD                  2            0  20".
Definition b11643 : text := " 022093 DIRECTIONAL SPECTRAL ESTIMATE BY WAVE NUMBER                     M**4                       2            0  20".
Definition b11644 : text := " 022094 TOTAL NUMBER OF WAVE BANDS                                       NUMERIC                    0            0   7".
Definition b11645 : text := " 022095 DIRECTIONAL SPREAD OF INDIVIDUAL WAVES                           DEGREE                     0            0   8".
Definition b11646 : text := " 022096 SPECTRAL BAND WIDTH                                              1/S                        3            0   4".
Definition b11647 : text := " 022097 MEAN WAVELENGTH > 731 M OF IMAGE SPECTRUM AT LOW WAVE NUMBERS    M                          0            0  14".
Definition b11648 : text := " 022098 WAVELENGTH SPREAD (WAVELENGTH > 731 M) AT LOW WAVE NUMBERS       M                          0            0  14".
Definition b11649 : text := " 022099 MEAN DIRECTION AT LOW WAVE NUMBERS (WAVELENGTH > 731 M)          DEGREE TRUE                0            0   9".
Definition b11650 : text := " 022100 DIRECTION SPREAD AT LOW WAVE NUMBERS (WAVELENGTH > 731 M)        DEGREE                     0            0   9".
Definition b11651 : text := " 022101 TOTAL ENERGY (WAVELENGTH > 731 M) AT LOW WAVE NUMBERS            NUMERIC                    0            0  31".
Definition b11652 : text := " 022120 TIDE STATION AUTOMATED WATER LEVEL CHECK                         CODE TABLE 022120          0            0   5".
Definition b11653 : text := " 022121 TIDE STATION MANUAL WATER LEVEL CHECK                            CODE TABLE 022121          0            0   5".
Definition b11654 : text := " 022122 TIDE STATION AUTOMATED METEOROLOGICAL DATA CHECK                 CODE TABLE 022122          0            0   5".
Definition b11655 : text := " 022123 TIDE STATION MANUAL METEOROLOGICAL DATA CHECK                    CODE TABLE 022123          0            0   5".
Definition b11656 : text := " 022141 SEA SURFACE TEMPERATURE (15 DAY RUNNING MEAN)                    K                          2            0  15".
Definition b11657 : text := " 022150 NUMBER OF 18 HZ VALID POINTS FOR KU BAND                         NUMERIC                    0            0  10".
Definition b11658 : text := " 022151 KU BAND OCEAN RANGE                                              M                          3            0  31".
Definition b11659 : text := " 022152 STD OF 18 HZ KU BAND OCEAN RANGE                                 M                          3            0  16".
Definition b11660 : text := " 022153 NUMBER OF 18 HZ VALID POINTS FOR S  BAND                         NUMERIC                    0            0  10".
Definition b11661 : text := " 022154 S BAND OCEAN RANGE                                               M                          3            0  31".
Definition b11662 : text := " 022155 STD OF 18 HZ S BAND OCEAN RANGE                                  M                          3            0  16".
Definition b11663 : text := " 022156 KU BAND SIGNIFICANT WAVE HEIGHT                                  M                          3            0  16".
Definition b11664 : text := " 022157 STD 18 HZ KU BAND SIGNIFICANT WAVE HEIGHT                        M                          3            0  16".
Definition b11665 : text := " 022158 S  BAND SIGNIFICANT WAVE HEIGHT                                  M                          3            0  16".
Definition b11666 : text := " 022159 STD 18 HZ S  BAND SIGNIFICANT WAVE HEIGHT                        M                          3            0  16".
Definition b11667 : text := " 022160 NORMALIZED INVERSE WAVE AGE                                      NUMERIC                    6            0  21".
Definition b11668 : text := " 022161 WAVE SPECTRA                                                     M**4                       4            0  27".
Definition b11669 : text := " 023001 ACCIDENT EARLY NOTIFICATION-ARTICLE APPLICABLE                   CODE TABLE 023001          0            0   3".
Definition b11670 : text := " 023002 ACTIVITY OR FACILITY INVOLVED INCIDENT                           CODE TABLE 023002          0            0   5".
Definition b11671 : text := " 023003 TYPE OF RELEASE                                                  CODE TABLE 023003          0            0   3".
Definition b11672 : text := " 023004 COUNTERMEASURES TAKEN NEAR BORDER                                CODE TABLE 023004          0            0   3".
Definition b11673 : text := " 023005 CAUSE OF INCIDENT                                                CODE TABLE 023005          0            0   2".
Definition b11674 : text := " 023006 INCIDENT SITUATION                                               CODE TABLE 023006          0            0   3".
Definition b11675 : text := " 023007 CHARACTERISTICS OF RELEASE                                       CODE TABLE 023007          0            0   3".
Definition b11676 : text := " 023008 STATE OF CURRENT RELEASE                                         CODE TABLE 023008          0            0   2".
Definition b11677 : text := " 023009 STATE OF EXPECTED RELEASE                                        CODE TABLE 023009          0            0   2".
Definition b11678 : text := " 023016 POSSIBILITY OF SIGNIFICANT CHEMICAL TOXIC HEALTH EFFECT          CODE TABLE 023016          0            0   2".
Definition b11679 : text := " 023017 FLOW DISCHARGE OF MAJOR RECIPIENT                                M**3/S                     6            0  20".
Definition b11680 : text := " 023018 RELEASE BEHAVIOUR OVER TIME                                      CODE TABLE 023018          0            0   3".
Definition b11681 : text := " 023019 ACTUAL RELEASE HEIGHT                                            M                          0       -15000  17".
Definition b11682 : text := " 023021 EFFECTIVE RELEASE HEIGHT                                         M                          0       -15000  17".
Definition b11683 : text := " 023022 DISTANCE OF RELEASE POINT OR SITE OF INCIDENT                    M                          0            0  24".
Definition b11684 : text := " 023023 MAIN TRANSPORT SPEED IN THE ATMOSPHERE                           M/S                        1            0  12".
Definition b11685 : text := " 023024 MAIN TRANSPORT SPEED WATER                                       M/S                        2            0  13".
Definition b11686 : text := " 023025 MAIN TRANSPORT SPEED IN GROUND WATER                             M/S                        2            0  13".
Definition b11687 : text := " 023027 MAIN TRANSPORT DIRECTION IN THE ATMOSPHERE                       DEGREE TRUE                0            0   9".
Definition b11688 : text := " 023028 MAIN TRANSPORT DIRECTION IN WATER                                DEGREE TRUE                0            0   9".
Definition b11689 : text := " 023029 MAIN TRANSPORT DIRECTION IN GROUND WATER                         DEGREE TRUE                0            0   9".
Definition b11690 : text := " 023031 POSSIBILITY THAT PLUME WILL ENCOUNTER PRECIPITATION IN STATE IN  CODE TABLE 023031          0            0   2".
Definition b11691 : text := " 023032 PLUME WILL ENCOUNTER CHANGE IN WIND DIRECTION AND/OR SPEED FLAG  CODE TABLE 023032          0            0   2".
Definition b11692 : text := " 024001 ESTIMATE OF AMOUNT OF RADIOACTIVITY RELEASED UP TO SPECIFIED TIM Bq                       -11            0  28".
Definition b11693 : text := " 024002 ESTIMATED MAXIMUM POTENTIAL RELEASE                              Bq                       -11            0  28".
Definition b11694 : text := " 024003 COMPOSITION OF RELEASE                                           CODE TABLE 024003          0            0   5".
Definition b11695 : text := " 024004 ELEMENT NAME                                                     CCITTIA5                   0            0  16".
Definition b11696 : text := " 024005 ISOTOPE MASS                                                     NUMERIC                    0            0   9".
Definition b11697 : text := " 024011 DOSE                                                             mSv                        2            0  32".
Definition b11698 : text := " 024012 TRAJECTORY DOSE (DEFINED LOCATION AND EXPECTED TIME OF ARRIVAL)  mSv                        2            0  32".
Definition b11699 : text := " 024013 GAMMA DOSE IN AIR ALONG THE MAIN TRANSPORT PATH(DEFINED LOCATION mSv                        2            0  32".
Definition b11700 : text := " 024021 AIR CONCENTRATION(OF NAMED ISOTOPE TYPE INCLUDING GROSS BETA     Bq/M**3                    2            0  32".
Definition b11701 : text := " 024022 CONCENTRATION IN PRECIPITATION ( OF NAMED ISOTOPE TYPE)          Bq/L                       2            0  32".
Definition b11702 : text := " 024023 PULSE RATE OF BETA RADIATION                                     1/S                        1            0  14".
Definition b11703 : text := " 024024 PULSE RATE OF GAMMA RADIATION                                    1/S                        1            0  14".
Definition b11704 : text := " 025001 RANGE-GATE LENGTH                                                M                         -1            0   6".
Definition b11705 : text := " 025002 NUMBER OF GATES AVERAGED                                         NUMERIC                    0            0   4".
Definition b11706 : text := " 025003 NUMBER OF INTEGRATED PULSES                                      NUMERIC                    0            0   8".
Definition b11707 : text := " 025004 ECHO PROCESSING                                                  CODE TABLE 025004          0            0   2".
Definition b11708 : text := " 025005 ECHO INTEGRATION                                                 CODE TABLE 025005          0            0   2".
Definition b11709 : text := " 025006 Z TO R CONVERSION                                                CODE TABLE 025006          0            0   3".
Definition b11710 : text := " 025007 Z TO R CONVERSION FACTOR                                         NUMERIC                    0            0  12".
Definition b11711 : text := " 025008 Z TO R CONVERSION EXPONENT                                       NUMERIC                    2            0   9".
Definition b11712 : text := " 025009 CALIBRATION METHOD                                               FLAG TABLE 025009          0            0   4".
Definition b11713 : text := " 025010 CLUTTER TREATMENT                                                CODE TABLE 025010          0            0   4".
Definition b11714 : text := " 025011 GROUND OCCULTATION CORRECTION (SCREENING)                        CODE TABLE 025011          0            0   2".
Definition b11715 : text := " 025012 RANGE ATTENUATION CORRECTION                                     CODE TABLE 025012          0            0   2".
Definition b11716 : text := " 025013 BRIGHT-BAND CORRECTION                                           FLAG TABLE 025013          0            0   2".
Definition b11717 : text := " 025014 AZIMUTH CLUTTER CUT-OFF                                          NUMERIC                    0            0  12".
Definition b11718 : text := " 025015 RADOME ATTENUATION CORRECTION                                    FLAG TABLE 025015          0            0   2".
Definition b11719 : text := " 025016 CLEAR-AIR ATTENUATION CORRECTION                                 dB/M                       5            0   6".
Definition b11720 : text := " 025017 PRECIPITATION ATTENUATION CORRECTION                             FLAG TABLE 025017          0            0   2".
Definition b11721 : text := " 025018 A TO Z LAW FOR ATTENUATION FACTOR                                NUMERIC                    7            0   6".
Definition b11722 : text := " 025019 A TO Z LAW FOR ATTENUATION EXPONENT                              NUMERIC                    2            0   7".
Definition b11723 : text := " 025020 MEAN SPEED ESTIMATION                                            CODE TABLE 025020          0            0   2".
Definition b11724 : text := " 025021 WIND COMPUTATION ENHANCEMENT                                     FLAG TABLE 025021          0            0   8".
Definition b11725 : text := " 025025 BATTERY VOLTAGE                                                  V                          1            0   9".
Definition b11726 : text := " 025026 BATTERY VOLTAGE (LARGE RANGE)                                    V                          1            0  12".
Definition b11727 : text := " 025028 OPERATOR OR MANUFACTURER DEFINED PARAMETER                       NUMERIC                    1       -16384  15".
Definition b11728 : text := " 025030 RUNNING MEAN SEA-SURFACE TEMPERATURE USAGE                       CODE TABLE 025030          0            0   2".
Definition b11729 : text := " 025032 WIND PROFILER MODE INFORMATION                                   CODE TABLE 025032          0            0   2".
Definition b11730 : text := " 025033 WIND PROFILER SUBMODE INFORMATION                                CODE TABLE 025033          0            0   2".
Definition b11731 : text := " 025034 WIND PROFILER QUALITY CONTROL TEST RESULTS                       FLAG TABLE 025034          0            0   4".
Definition b11732 : text := " 025036 ATMOSPHERICS LOCATION METHOD                                     CODE TABLE 025036          0            0   4".
Definition b11733 : text := " 025040 CO2 WIND PRODUCT DERIVATION                                      CODE TABLE 025040          0            0   4".
Definition b11734 : text := " 025041 MOVING PLATFORM DIRECTION REPORTING METHOD                       CODE TABLE 025041          0            0   2".
Definition b11735 : text := " 025042 MOVING PLATFORM SPEED REPORTING METHOD                           CODE TABLE 025042          0            0   2".
Definition b11736 : text := " 025043 WAVE SAMPLING INTERVAL (TIME)                                    S                          4            0  15".
Definition b11737 : text := " 025044 WAVE SAMPLING INTERVAL (SPACE)                                   M                          2            0  14".
Definition b11738 : text := " 025045 HIRS CHANNEL COMBINATION                                         FLAG TABLE 025045          0            0  21".
Definition b11739 : text := " 025046 MSU CHANNEL COMBINATION                                          FLAG TABLE 025046          0            0   5".
Definition b11740 : text := " 025047 SSU CHANNEL COMBINATION                                          FLAG TABLE 025047          0            0   4".
Definition b11741 : text := " 025048 AMSU-A CHANNEL COMBINATION                                       FLAG TABLE 025048          0            0  16".
Definition b11742 : text := " 025049 AMSU-B CHANNEL COMBINATION                                       FLAG TABLE 025049          0            0   6".
Definition b11743 : text := " 025051 AVHRR CHANNEL COMBINATION                                        FLAG TABLE 025051          0            0   7".
Definition b11744 : text := " 025053 OBSERVATION QUALITY                                              FLAG TABLE 025053          0            0  12".
Definition b11745 : text := " 025054 SSMIS SUBFRAME ID NUMBER                                         NUMERIC                    0            0   5".
Definition b11746 : text := " 025055 MULTIPLEX HOUSEKEEPING                                           K                          2            0  16".
Definition b11747 : text := " 025060 SOFTWARE IDENTIFICATION                                          NUMERIC                    0            0  14".
Definition b11748 : text := " 025061 SOFTWARE IDENTIFICATION                                          CCITTIA5                   0            0  96".
Definition b11749 : text := " 025070 MAJOR FRAME COUNT                                                NUMERIC                    0            0   4".
Definition b11750 : text := " 025071 FRAME COUNT                                                      NUMERIC                    0            0   5".
Definition b11751 : text := " 025075 SATELLITE ANTENNA CORRECTIONS VERSION NUMBER                     NUMERIC                    0            0   5".
Definition b11752 : text := " 025076 LOG_10 OF (TEMPERATURE-RADIANCE CENTRAL WAVENUMBER) FOR ATOVS    LOG (1/M)                  8            0  30".
Definition b11753 : text := " 025077 BANDWIDTH CORRECTION COEFFICIENT 1 for ATOVS                     NUMERIC                    5      -100000  18".
Definition b11754 : text := " 025078 BANDWIDTH CORRECTION COEFFICIENT 2 FOR ATOVS                     NUMERIC                    5            0  17".
Definition b11755 : text := " 025079 ALBEDO-RADIANCE SOLAR FILTERED IRRADIANCE FOR ATOVS              W/M**2                     4            0  24".
Definition b11756 : text := " 025080 ALBEDO-RADIANCE EQUIVALENT FILTER WIDTH FOR ATOVS                M                         10            0  14".
Definition b11757 : text := " 025085 FRACTION OF CLEAR PIXELS IN HIRS FOV                             NUMERIC                    0            0   7".
Definition b11758 : text := " 025086 DEPTH CORRECTION INDICATOR                                       CODE TABLE 025086          0            0   2".
Definition b11759 : text := " 025091 STRUCTURE CONSTANT OF THE REFRACTION INDEX (Cn2)                 dB                         3       -18192  13".
Definition b11760 : text := " 025092 ACOUSTIC PROPAGATION VELOCITY                                    M/S                        2        28000  14".
Definition b11761 : text := " 025093 RASS COMPUTATIONAL CORRECTION                                    FLAG TABLE 025093          0            0   8".
Definition b11762 : text := " 025095 ALTIMETER STATE FLAG                                             FLAG TABLE 025095          0            0   2".
Definition b11763 : text := " 025096 RADIOMETER STATE FLAG                                            FLAG TABLE 025096          0            0   5".
Definition b11764 : text := " 025097 THREE DIMENSIONAL ERROR ESTIMATE OF THE NAVIGATOR ORBIT          CODE TABLE 025097          0            0   4".
Definition b11765 : text := " 025100 XBT/XCTD FALL RATE EQUATION COEFFICIENT A                        NUMERIC                    5            0  20".
Definition b11766 : text := " 025101 XBT/XCTD FALL RATE EQUATION COEFFICIENT B                        NUMERIC                    5      -500000  21".
Definition b11767 : text := " 025102 NUMBER OF MISSING LINES EXCLUDING DATA GAPS                      NUMERIC                    0            0   8".
Definition b11768 : text := " 025103 NUMBER OF DIRECTIONAL BINS                                       NUMERIC                    0            0   8".
Definition b11769 : text := " 025104 NUMBER OF WAVELENGHT BINS                                        NUMERIC                    0            0   8".
Definition b11770 : text := " 025107 FIRST WAVELENGHT BIN                                             M                          3            0  29".
Definition b11771 : text := " 025108 LAST WAVELENGHT BIN                                              M                          3            0  29".
Definition b11772 : text := " 025110 IMAGE PROCESSING SUMMARY                                         FLAG TABLE 025110          0            0  10".
Definition b11773 : text := " 025111 NUMBER OF INPUT DATA GAPS                                        NUMERIC                    0            0   8".
Definition b11774 : text := " 025120 RA2_L2_PROCESSING FLAG                                           CODE TABLE 025120          0            0   2".
Definition b11775 : text := " 025121 RA2_L2_PROCESSING QUALITY                                        %                          0            0   7".
Definition b11776 : text := " 025122 HARDWARE CONFIGURATION FOR RF                                    CODE TABLE 025122          0            0   2".
Definition b11777 : text := " 025123 HARDWARE CONFIGURATION FOR HPA                                   CODE TABLE 025123          0            0   2".
Definition b11778 : text := " 025124 MWR L2 PROCESSING FLAG                                           CODE TABLE 025124          0            0   2".
Definition b11779 : text := " 025125 MWR L2 PROCESSING QUALITY                                        %                          0            0   7".
Definition b11780 : text := " 025126 MODEL DRY TROPOSPHERIC CORRECTION                                M                          3       -32768  16".
Definition b11781 : text := " 025127 SEA SURFACE HEIGHT CORRECTION DUE TO PRESSURE LOADING            M                          3       -32768  16".
Definition b11782 : text := " 025128 MODEL WET TROPOSPHERIC CORRECTION                                M                          3       -32768  16".
Definition b11783 : text := " 025129 MWR DERIVED WET TROPOSPHERIC CORRECTION                          M                          3       -32768  16".
Definition b11784 : text := " 025130 RA2 IONOSPHERIC CORRECTION ON KU BAND                            M                          3       -32768  16".
Definition b11785 : text := " 025131 IONOSPHERIC CORRECTION FROM DORIS ON KU BAND                     M                          3       -32768  16".
Definition b11786 : text := " 025132 IONOSPHERIC CORRECTION FROM MODEL ON KU BAND                     M                          3       -32768  16".
Definition b11787 : text := " 025133 SEA STATE BIAS CORRECTION ON KU BAND                             M                          3       -32768  16".
Definition b11788 : text := " 025134 RA2 IONOSPHERIC CORRECTION ON S BAND                             M                          3       -32768  16".
Definition b11789 : text := " 025135 IONOSPHERIC CORRECTION FROM DORIS ON S BAND                      M                          3       -32768  16".
Definition b11790 : text := " 025136 IONOSPHERIC CORRECTION FROM MODEL ON S BAND                      M                          3       -32768  16".
Definition b11791 : text := " 025137 SEA STATE BIAS CORRECTION ON S  BAND                             M                          3       -32768  16".
Definition b11792 : text := " 025138 AVERAGE SIGNAL TO NOISE RATIO                                    NUMERIC                    0        -2048  12".
Definition b11793 : text := " 025203 SCAN LINE STATUS FLAGS FOR ATOVS                                 FLAG TABLE  25081          0            0  31  ".
Definition b11794 : text := " 025204 SCAN LINE QUALITY FLAGS FOR ATOVS                                FLAG TABLE  25082          0            0  31  ".
Definition b11795 : text := " 025205 CHANNEL QUALITY FLAGS FOR ATOVS                                  FLAG TABLE  25083          0            0  31  ".
Definition b11796 : text := " 025206 FOV QUALITY FLAGS FOR ATOVS                                      FLAG TABLE  25084          0            0  31  ".
Definition b11797 : text := " 026001 PRINCIPAL TIME OF DAILY READING IN UTC OF MAXIMUM TEMPERATURE    HOUR                       1            0  12".
Definition b11798 : text := " 026002 PRINCIPAL TIME OF DAILY READING IN UTC OF MINIMUM TEMPERATURE    HOUR                       1            0  12".
Definition b11799 : text := " 026003 TIME DIFFERENCE                                                  MINUTE                     0        -1440  12".
Definition b11800 : text := " 026010 HOURS INCLUDED                                                   FLAG TABLE 026010          0            0  26".
Definition b11801 : text := " 026020 DURATION OF PRECIPITATION                                        MINUTE                     0            0  11".
Definition b11802 : text := " 026201 HOURS INCLUDED                                                   FLAG TABLE  26201          0            0  26  ".
Definition b11803 : text := " 027001 LATITUDE(HIGH ACCURACY)                                          DEGREE                     5     -9000000  25".
Definition b11804 : text := " 027002 LATITUDE(COARSE ACCURACY)                                        DEGREE                     2        -9000  15".
Definition b11805 : text := " 027003 ALTERNATE LATITUDE                                               DEGREE                     2        -9000  15".
Definition b11806 : text := " 027004 ALTERNATE LATITUDE (HIGH ACCURACY)                               DEGREE                     5     -9000000  25".
Definition b11807 : text := " 027020 SATELLITE LOCATION COUNTER                                       NUMERIC                    0            0  16".
Definition b11808 : text := " 027021 SATELLITE SUBLOCATION DIMENSION                                  NUMERIC                    0            0  16".
Definition b11809 : text := " 027031 IN DIRECTION OF 0 DEGREES LONGITUDE, DISTANCE FROM THE EARTH'S C M                          2  -1073741824  31".
Definition b11810 : text := " 027035 LENGTH OF PHENOMENON                                             M                         -3            0  13".
Definition b11811 : text := " 027080 VIEWING AZIMUTH ANGLE                                            DEGREE TRUE                2            0  16".
Definition b11812 : text := " 028001 LONGITUDE(HIGH ACCURACY)                                         DEGREE                     5    -18000000  26".
Definition b11813 : text := " 028002 LONGITUDE(COARSE ACCURACY)                                       DEGREE                     2       -18000  16".
Definition b11814 : text := " 028003 ALTERNATE LONGITUDE                                              DEGREE                     2       -18000  16".
Definition b11815 : text := " 028004 ALTERNATE LONGITUDE (HIGH ACCURACY)                              DEGREE                     5    -18000000  26".
Definition b11816 : text := " 028031 IN DIRECTION 90 DEGREES EAST,DISTANCE FROM THE EARTH'S CENTRE    M                          2  -1073741824  31".
Definition b11817 : text := " 028035 WIDTH OF PHENOMENON                                              M                         -3            0  13".
Definition b11818 : text := " 029001 PROJECTION TYPE                                                  CODE TABLE 029001          0            0   3".
Definition b11819 : text := " 029002 COORDINATE GRID TYPE                                             CODE TABLE 029002          0            0   3".
Definition b11820 : text := " 030001 PIXEL VALUE(4 BITS)                                              NUMERIC                    0            0   4".
Definition b11821 : text := " 030002 PIXEL VALUE(8 BITS)                                              NUMERIC                    0            0   8".
Definition b11822 : text := " 030004 PIXEL VALUE(16 BITS)                                             NUMERIC                    0            0  16".
Definition b11823 : text := " 030021 NUMBER OF PIXELS PER ROW                                         NUMERIC                    0            0  12".
Definition b11824 : text := " 030022 NUMBER OF PIXELS PER COLUMN                                      NUMERIC                    0            0  12".
Definition b11825 : text := " 030031 PICTURE TYPE                                                     CODE TABLE 030031          0            0   4".
Definition b11826 : text := " 030032 COMBINATION WITH OTHER DATA                                      FLAG TABLE 030032          0            0  16".
Definition b11827 : text := " 031000 SHORT DELAYED DESCRIPTOR REPLICATION FACTOR                      NUMERIC                    0            0   1".
Definition b11828 : text := " 031001 DELAYED DESCRIPTOR REPLICATION FACTOR                            NUMERIC                    0            0   8".
Definition b11829 : text := " 031002 EXTENDED DELAYED DESCRIPTOR REPLICATION FACTOR                   NUMERIC                    0            0  16".
Definition b11830 : text := " 031011 DELAYED DESCRIPTOR AND DATA REPETITION FACTOR                    NUMERIC                    0            0   8".
Definition b11831 : text := " 031012 EXTENDED DELAYED DESCRIPTOR AND DATA REPETITION FACTOR           NUMERIC                    0            0  16".
Definition b11832 : text := " 031021 ASSOCIATED FIELD SIGNIFICANCE                                    CODE TABLE 031021          0            0   6".
Definition b11833 : text := " 031031 DATA PRESENT INDICATOR                                           FLAG TABLE 031031          0            0   1".
Definition b11834 : text := " 033002 QUALITY INFORMATION                                              CODE TABLE 033002          0            0   2".
Definition b11835 : text := " 033003 QUALITY INFORMATION                                              CODE TABLE 033003          0            0   3".
Definition b11836 : text := " 033005 QUALITY INFORMATION (AWS DATA)                                   FLAG TABLE 033005          0            0  30".
Definition b11837 : text := " 033006 INTERNAL MEASUREMENT STATUS INFORMATION (AWS)                    CODE TABLE 033006          0            0   3".
Definition b11838 : text := " 033007 % CONFIDENCE                                                     %                          0            0   7".
Definition b11839 : text := " 033020 QUALITY CONTROL INDICATION OF FOLLOWING VALUE                    CODE TABLE 033020          0            0   3".
Definition b11840 : text := " 033021 QUALITY OF FOLLOWING VALUE                                       CODE TABLE 033021          0            0   2".
Definition b11841 : text := " 033022 QUALITY OF BUOY SATELLITE TRANSMISSION                           CODE TABLE 033022          0            0   2".
Definition b11842 : text := " 033023 QUALITY OF BUOY LOCATION                                         CODE TABLE 033023          0            0   2".
Definition b11843 : text := " 033024 STATION ELEVATION QUALITY MARK  (FOR MOBILE STATION)             CODE TABLE 033024          0            0   4".
Definition b11844 : text := " 033025 ACARS INTERPOLATED VALUES                                        CODE TABLE 033025          0            0   3".
Definition b11845 : text := " 033026 MIXING RATIO QUALITY                                             CODE TABLE 033026          0            0   6".
Definition b11846 : text := " 033027 LOCATION QUALITY CLASS (RANGE OF RADIUS OF 66% CONFIDENCE)       CODE TABLE 033027          0            0   3".
Definition b11847 : text := " 033030 SCAN LINE STATUS FLAGS FOR ATOVS                                 FLAG TABLE 033030          0            0  24".
Definition b11848 : text := " 033031 SCAN LINE QUALITY FLAGS FOR ATOVS                                FLAG TABLE 033031          0            0  24".
Definition b11849 : text := " 033032 CHANNEL QUALITY FLAGS FOR ATOVS                                  FLAG TABLE 033032          0            0  24".
Definition b11850 : text := " 033033 FIELD OF VIEW QUALITY FLAGS FOR ATOVS                            FLAG TABLE 033033          0            0  24".
Definition b11851 : text := " 033035 MANUAL/AUTOMATIC QUALITY CONTROL                                 CODE TABLE 033035          0            0   4".
Definition b11852 : text := " 033036 NOMINAL CONFIDENCE THRESHOLD                                     %                          0            0   7".
Definition b11853 : text := " 033037 WIND CORRELATION ERROR                                           FLAG TABLE 033037          0            0  20".
Definition b11854 : text := " 033038 QUALITY FLAG FOR GROUND BASED GNSS DATA                          FLAG TABLE 033038          0            0  10".
Definition b11855 : text := " 033040 CONFIDENCE INTERVAL                                              %                          0            0   7".
Definition b11856 : text := " 033041 ATTRIBUTE OF FOLLOWING VALUE                                     CODE TABLE 033041          0            0   2".
Definition b11857 : text := " 033043 AST CONFIDENCE                                                   FLAG TABLE 033043          0            0   8".
Definition b11858 : text := " 033044 ASAR QUALITY INFORMATION                                         FLAG TABLE 033044          0            0  15".
Definition b11859 : text := " 033047 MEASUREMENT CONFIDENCE DATA                                      FLAG TABLE 033047          0            0  31".
Definition b11860 : text := " 033048 CONFIDENCE MEASURE OF SAR INVERSION                              CODE TABLE 033048          0            0   2".
Definition b11861 : text := " 033049 CONFIDENCE MEASURE OF WIND RETIEVAL                              CODE TABLE 033049          0            0   2".
Definition b11862 : text := " 033050 GLOBAL GTSPP QUALITY FLAG                                        CODE TABLE 033050          0            0   4".
Definition b11863 : text := " 033051 ASAR QUALITY INFORMATION                                         FLAG TABLE 033051          0            0  15".
Definition b11864 : text := " 033052 S  BAND OCEAN RETRACKING QUALITY                                 FLAG TABLE 033052          0            0  21".
Definition b11865 : text := " 033053 KU BAND OCEAN RETRACKING QUALITY                                 FLAG TABLE 033053          0            0  21".
Definition b11866 : text := " 033054 DATA EXTRACTION INDICATOR                                        FLAG TABLE 033054          0            0   8".
Definition b11867 : text := " 033198 MINIMUM COST                                                     NUMERIC                    4            0  14".
Definition b11868 : text := " 033199 1D VAR TOTAL PRECIPITABLE WATER RETRIEVED ERROR(S)               KG/M**2                    2            0  11".
Definition b11869 : text := " 033208 VARIATIONAL ANALYSIS FIRST QUESS CHECK FLAG                      CODE TABLE 033208          0            0   4".
Definition b11870 : text := " 033210 INCREMENTAL VARIATIONAL ANALYSIS UPDATE NUMBER                   NUMERIC                    0            0   7".
Definition b11871 : text := " 033211 MINIMISATION SIMULATION NUMBER                                   NUMERIC                    0            0  10".
Definition b11872 : text := " 033212 1D VAR ITERATION NUMBER                                          NUMERIC                    0            0  10".
Definition b11873 : text := " 033213 1D VAR RADIANCE COST                                             NUMERIC                    1        -1000  11".
Definition b11874 : text := " 033215 DIRECTIONAL SKILL                                                NUMERIC                    1        -4096  13".
Definition b11875 : text := " 033218 1D VAR ESTIMATE OF SCATTERING                                    NUMERIC                    2            0  12".
Definition b11876 : text := " 033219 SSMI INDIPENDENT SCATTERING INDEX                                NUMERIC                    2       -50000  16".
Definition b11877 : text := " 033237 VARIATIONAL ANALYSIS SYNOP DATUM EVENTS (2)                      FLAG TABLE 033237          0            0  31".
Definition b11878 : text := " 033238 VARIATIONAL ANALYSIS AIREP DATUM EVENTS (2)                      FLAG TABLE 033238          0            0  31".
Definition b11879 : text := " 033239 VARIATIONAL ANALYSIS SATOB DATUM EVENTS (2)                      FLAG TABLE 033239          0            0  31".
Definition b11880 : text := " 033240 VARIATIONAL ANALYSIS DRIBU DATUM EVENTS (2)                      FLAG TABLE 033240          0            0  31".
Definition b11881 : text := " 033241 GROSS ERROR PROBABILITY                                          NUMERIC                    3            0  10".
Definition b11882 : text := " 033244 VARIATIONAL ANALYSIS PILOT DATUM EVENTS (2)                      FLAG TABLE 033244          0            0  31".
Definition b11883 : text := " 033250 PROBABILITY OF GROSS ERROR                                       NUMERIC                    6            0  20".
Definition b11884 : text := " 033251 RANGE OF POSSIBLE VALUES                                         NUMERIC                    2            0  14".
Definition b11885 : text := " 033253 NOMINAL CONFIDENCE THRESHOLD                                     %                          0            0   7".
Definition b11886 : text := " 033254 WIND CORRELATION METHOD                                          FLAG TABLE  33254          0            0  20  ".
Definition b11887 : text := " 035000 FM AND REGIONAL CODE NUMBER                                      CODE TABLE 035000          0            0  10".
Definition b11888 : text := " 035001 TIME-FRAME FOR MONITORING                                        CODE TABLE 035001          0            0   3".
Definition b11889 : text := " 035011 NUMBER OF REPORTS ACTUALLY RECEIVED                              NUMERIC                    0            0  14".
Definition b11890 : text := " 035021 BULLETIN BEING MONITORED (TTAAII)                                CCITTIA5                   0            0  48".
Definition b11891 : text := " 035022 BULLETIN BEING MONITORED (YYGGGG)                                CCITTIA5                   0            0  48".
Definition b11892 : text := " 035023 BULLETIN BEING MONITORED (CCCC)                                  CCITTIA5                   0            0  32".
Definition b11893 : text := " 035024 BULLETIN BEING MONITORED (BBB)                                   CCITTIA5                   0            0  24".
Definition b11894 : text := " 035030 DISCREPANCIES IN THE AVAILABILITY OF EXPECTED DATA               CODE TABLE 035030          0            0   4".
Definition b11895 : text := " 035031 QUALIFIER ON MONITORING RESULTS                                  CODE TABLE 035031          0            0   7".
Definition b11896 : text := " 035032 CAUSE OF MISSING DATA                                            CODE TABLE 035032          0            0   4".
Definition b11897 : text := " 035033 OBSERVATION AND COLLECTION DEFICIENCIES                          CODE TABLE 035033          0            0   7".
Definition b11898 : text := " 035034 STATISTICAL TRENDS FOR AVAILABILITY OF DATA (DURING THE SURVEY P CODE TABLE 035034          0            0   3".
Definition b11899 : text := " 049193 SAR INVERSION QC FLAGS                                           FLAG TABLE  49193          0            0  15  ".
Definition b11900 : text := " 049194 ALTIMETER WAVE HEIGHT QC FLAFS                                   FLAG TABLE  49194          0            0  15  ".
Definition b11901 : text := " 013240 AIR DENSITY                                                      KG/M**3                    3            0  10".
Definition b11902 : text := " 013241 CONVECTIVE AVAILABLE POTENTIAL ENERGY                            J/KG                       1            0  17".
Definition b11903 : text := " 001024 GRID POINT IDENTIFIER                                            NUMERIC                    0            0  24 NUMERIC                   0         8".
Definition b11904 : text := " 002098 POLARISATION                                                     CODE TABLE 2098            0            0   3 CODE TABLE 2098           0         1".
Definition b11905 : text := " 002201 SIMULATED SATELLITE INSTRUMENT                                   FLAG TABLE 2201            0            0   4  ".
Definition b11906 : text := " 007011 GRID POINT ALTITUDE                                              M                          2       -50000  20 M                         2         7".
Definition b11907 : text := " 012082 PIXEL RADIOMETRIC ACCURACY                                       K                          2            0  16 K                         2         5".
Definition b11908 : text := " 025144 SMOS INFORMATION FLAG                                            FLAG TABLE 25144           0            0  14 FLAG TABLE                0         5".
Definition b11909 : text := " 000001 Table A:  entry                                                  CCITTIA5                   0            0  24 CHARACTER                 0          3 ".
Definition b11910 : text := " 000002 Table A:  data category description, line 1                      CCITTIA5                   0            0 256 CHARACTER                 0         32 ".
Definition b11911 : text := " 000003 Table A:  data category description, line 2                      CCITTIA5                   0            0 256 CHARACTER                 0         32 ".
Definition b11912 : text := " 000005 BUFR/CREX edition number                                         CCITTIA5                   0            0  24 CHARACTER                 0          3 ".
Definition b11913 : text := " 000010 F descriptor to be added or defined                              CCITTIA5                   0            0   8 CHARACTER                 0          1 ".
Definition b11914 : text := " 000011 X descriptor to be added or defined                              CCITTIA5                   0            0  16 CHARACTER                 0          2 ".
Definition b11915 : text := " 000012 Y descriptor to be added or defined                              CCITTIA5                   0            0  24 CHARACTER                 0          3 ".
Definition b11916 : text := " 000013 Element name, line 1                                             CCITTIA5                   0            0 256 CHARACTER                 0         32 ".
Definition b11917 : text := " 000014 Element name, line 2                                             CCITTIA5                   0            0 256 CHARACTER                 0         32 ".
Definition b11918 : text := " 000015 Units name                                                       CCITTIA5                   0            0 192 CHARACTER                 0         24 ".
Definition b11919 : text := " 000016 Units scale sign                                                 CCITTIA5                   0            0   8 CHARACTER                 0          1 ".
Definition b11920 : text := " 000017 Units scale                                                      CCITTIA5                   0            0  24 CHARACTER                 0          3 ".
Definition b11921 : text := " 000018 Units reference sign                                             CCITTIA5                   0            0   8 CHARACTER                 0          1 ".
Definition b11922 : text := " 000019 Units reference value                                            CCITTIA5                   0            0  80 CHARACTER                 0         10 ".
Definition b11923 : text := " 000020 Element data width                                               CCITTIA5                   0            0  24 CHARACTER                 0          3 ".
Definition b11924 : text := " 000030 Descriptor defining sequence                                     CCITTIA5                   0            0  48 CHARACTER                 0          6 ".
Definition b11925 : text := " 001001 WMO block number                                                 NUMERIC                    0            0   7 NUMERIC                   0          2 ".
Definition b11926 : text := " 001002 WMO station number                                               NUMERIC                    0            0  10 NUMERIC                   0          3 ".
Definition b11927 : text := " 001003 WMO Region number/geographical area                              CODE TABLE                 0            0   3 CODE TABLE                0          1 ".
Definition b11928 : text := " 001004 WMO Region sub-area (see Note 9)                                 NUMERIC                    0            0   3 NUMERIC                   0          1 ".
Definition b11929 : text := " 001005 Buoy/platform identifier                                         NUMERIC                    0            0  17 NUMERIC                   0          5 ".
Definition b11930 : text := " 001006 Aircraft flight number                                           CCITTIA5                   0            0  64 CHARACTER                 0          8 ".
Definition b11931 : text := " 001007 Satellite identifier                                             CODE TABLE                 0            0  10 CODE TABLE                0          4 ".
Definition b11932 : text := " 001008 Aircraft registration number or other identification             CCITTIA5                   0            0  64 CHARACTER                 0          8 ".
Definition b11933 : text := " 001009 Type of commercial aircraft                                      CCITTIA5                   0            0  64 CHARACTER                 0          8 ".
Definition b11934 : text := " 001010 Stationary buoy platform identifier; e.g. C-MAN buoys            CCITTIA5                   0            0  64 CHARACTER                 0          8 ".
Definition b11935 : text := " 001011 Ship or mobile land station identifier                           CCITTIA5                   0            0  72 CHARACTER                 0          9 ".
Definition b11936 : text := " 001012 Direction of motion of moving observing platform**               DEGREE TRUE                0            0   9 DEGREE TRUE               0          3 ".
Definition b11937 : text := " 001013 Speed of motion of moving observing platform**                   M S-1                      0            0  10 M S-1                     0          3 ".
Definition b11938 : text := " 001014 Platform drift speed (high precision)                            M S-1                      2            0  10 M S-1                     2          4 ".
Definition b11939 : text := " 001015 Station or site name                                             CCITTIA5                   0            0 160 CHARACTER                 0         20 ".
Definition b11940 : text := " 001018 Short station or site name                                       CCITTIA5                   0            0  40 CHARACTER                 0          5 ".
Definition b11941 : text := " 001019 Long Station or site name                                        CCITTIA5                   0            0 256 CHARACTER                 0         32 ".
Definition b11942 : text := " 001020 WMO Region sub-area                                              NUMERIC                    0            0   4 NUMERIC                   0          2 ".
Definition b11943 : text := " 001021 Synoptic feature identifier                                      NUMERIC                    0            0  14 NUMERIC                   0          4 ".
Definition b11944 : text := " 001022 Name of feature (see Note 11)                                    CCITTIA5                   0            0 224 CHARACTER                 0         28 ".
Definition b11945 : text := " 001023 Observation sequence number                                      NUMERIC                    0            0   9 NUMERIC                   0          3 ".
Definition b11946 : text := " 001025 Storm identifier                                                 CCITTIA5                   0            0  24 CHARACTER                 0          3 ".
Definition b11947 : text := " 001026 WMO storm name*                                                  CCITTIA5                   0            0  64 CHARACTER                 0          8 ".
Definition b11948 : text := " 001027 WMO long storm name                                              CCITTIA5                   0            0  80 CHARACTER                 0         10 ".
Definition b11949 : text := " 001031 Identification of originating/generating centre (see Note 10)    CODE TABLE                 0            0  16 CODE TABLE                0          5 ".
Definition b11950 : text := " 001032 Generating application                                           CODE TABLE                 0            0   8 CODE TABLE                0          3 ".
Definition b11951 : text := " 001033 Identification of originating/generating centre                  CODE TABLE                 0            0   8 CODE TABLE                0          3 ".
Definition b11952 : text := " 001034 Identification of originating/generating sub-centre              CODE TABLE                 0            0   8 CODE TABLE                0          3 ".
Definition b11953 : text := " 001035 Originating Centre                                               CODE TABLE                 0            0  16 CODE TABLE                0          5 ".
Definition b11954 : text := " 001036 Agency in charge of operating the Observing platform             CODE TABLE                 0            0  20 CODE TABLE                0          7 ".
Definition b11955 : text := " 001041 Absolute platform velocity - first component (see Note 6)        M S-1                      5  -1073741824  31 M S-1                     5         10 ".
Definition b11956 : text := " 001042 Absolute platform velocity - second component (see Note 6)       M S-1                      5  -1073741824  31 M S-1                     5         10 ".
Definition b11957 : text := " 001043 Absolute platform velocity - third component (see Note 6)        M S-1                      5  -1073741824  31 M S-1                     5         10 ".
Definition b11958 : text := " 001050 Platform transmitter ID number                                   NUMERIC                    0            0  17 NUMERIC                   0          6 ".
Definition b11959 : text := " 001051 Platform transmitter ID number                                   CCITTIA5                   0            0  96 CHARACTER                 0         12 ".
Definition b11960 : text := " 001060 Aircraft reporting point (Beacon identifier)                     CCITTIA5                   0            0  64 CHARACTER                 0          8 ".
Definition b11961 : text := " 001062 Short ICAO location indicator                                    CCITTIA5                   0            0  32 CHARACTER                 0          4 ".
Definition b11962 : text := " 001063 ICAO location indicator                                          CCITTIA5                   0            0  64 CHARACTER                 0          8 ".
Definition b11963 : text := " 001064 Runway designator                                                CCITTIA5                   0            0  32 CHARACTER                 0          4 ".
Definition b11964 : text := " 001075 Tide station identification                                      CCITTIA5                   0            0  40 CHARACTER                 0          5 ".
Definition b11965 : text := " 001080 Ship line number according to SOOP                               CCITTIA5                   0            0  32 CHARACTER                 0          4 ".
Definition b11966 : text := " 001081 Radiosonde serial number                                         CCITTIA5                   0            0 160 CHARACTER                 0         20 ".
Definition b11967 : text := " 001082 Radiosonde ascension number (see Note 12)                        NUMERIC                    0            0  14 NUMERIC                   0          4 ".
Definition b11968 : text := " 001083 Radiosonde release number (see Note 12)                          NUMERIC                    0            0   3 NUMERIC                   0          1 ".
Definition b11969 : text := " 001085 Observing platform manufacturer's model                          CCITTIA5                   0            0 160 CHARACTER                 0         20 ".
Definition b11970 : text := " 001086 Observing platform manufacturer's serial number                  CCITTIA5                   0            0 256 CHARACTER                 0         32 ".
Definition b11971 : text := " 001090  Technique for making up initial perturbations                   CODE TABLE                 0            0   8 CODE TABLE                0          3 ".
Definition b11972 : text := " 001091 Ensemble member number                                           NUMERIC                    0            0  10 NUMERIC                   0          4 ".
Definition b11973 : text := " 001092 Type of ensemble forecast                                        CODE TABLE                 0            0   8 CODE TABLE                0          3 ".
Definition b11974 : text := " 001093 Balloon lot number                                               CCITTIA5                   0            0  96 CHARACTER                 0         12 ".
Definition b11975 : text := " 001094 WBAN Number                                                      NUMERIC                    0            0  17 NUMERIC                   0          5 ".
Definition b11976 : text := " 001095 Observer identification                                          CCITTIA5                   0            0  32 CHARACTER                 0          4 ".
Definition b11977 : text := " 002001 Type of station                                                  CODE TABLE                 0            0   2 CODE TABLE                0          1 ".
Definition b11978 : text := " 002002 Type of instrumentation for wind measurement                     FLAG TABLE                 0            0   4 FLAG TABLE                0          2 ".
Definition b11979 : text := " 002003 Type of measuring equipment used                                 CODE TABLE                 0            0   4 CODE TABLE                0          2 ".
Definition b11980 : text := " 002004 Type of instrumentation for evaporation measurement or type of c CODE TABLE                 0            0   4 CODE TABLE                0          2 ".
Definition b11981 : text := " 002005 Precision of temperature observation                             K                          2            0   7 K                         2          3 ".
Definition b11982 : text := " 002011 Radiosonde type                                                  CODE TABLE                 0            0   8 CODE TABLE                0          3 ".
Definition b11983 : text := " 002012 Radiosonde computational method                                  CODE TABLE                 0            0   4 CODE TABLE                0          2 ".
Definition b11984 : text := " 002013 Solar and infrared radiation correction                          CODE TABLE                 0            0   4 CODE TABLE                0          2 ".
Definition b11985 : text := " 002014 Tracking technique/status of system used                         CODE TABLE                 0            0   7 CODE TABLE                0          3 ".
Definition b11986 : text := " 002015 Radiosonde completeness                                          CODE TABLE                 0            0   4 CODE TABLE                0          2 ".
Definition b11987 : text := " 002016 Radiosonde configuration                                         FLAG TABLE                 0            0   5 FLAG TABLE                0          2 ".
Definition b11988 : text := " 002019 Satellite instruments                                            CODE TABLE                 0            0  11 CODE TABLE                0          4 ".
Definition b11989 : text := " 002020 Satellite classification                                         CODE TABLE                 0            0   9 CODE TABLE                0          3 ".
Definition b11990 : text := " 002021 Satellite instrument data used in processing*                    FLAG TABLE                 0            0   9 FLAG TABLE                0          3 ".
Definition b11991 : text := " 002022 Satellite data-processing technique used                         FLAG TABLE                 0            0   8 FLAG TABLE                0          3 ".
Definition b11992 : text := " 002023 Satellite derived wind computation method                        CODE TABLE                 0            0   4 CODE TABLE                0          2 ".
Definition b11993 : text := " 002024 Integrated mean humidity computational method                    CODE TABLE                 0            0   4 CODE TABLE                0          2 ".
Definition b11994 : text := " 002025 Satellite channel(s) used in computation                         FLAG TABLE                 0            0  25 FLAG TABLE                0          9 ".
Definition b11995 : text := " 002026 Cross track resolution                                           M                          2            0  12 M                         2          4 ".
Definition b11996 : text := " 002027 Along track resolution                                           M                          2            0  12 M                         2          4 ".
Definition b11997 : text := " 002028 Segment size at nadir in X direction                             M                          0            0  18 M                         0          6 ".
Definition b11998 : text := " 002029 Segment size at nadir in Y direction                             M                          0            0  18 M                         0          6 ".
Definition b11999 : text := " 002030 Method of current measurement                                    CODE TABLE                 0            0   3 CODE TABLE                0          1 ".
Definition b12000 : text := " 002031 Duration and time of current measurement                         CODE TABLE                 0            0   5 CODE TABLE                0          2 ".
Definition b12001 : text := " 002032 Indicator for digitization                                       CODE TABLE                 0            0   2 CODE TABLE                0          1 ".
Definition b12002 : text := " 002033 Method of salinity/depth measurement                             CODE TABLE                 0            0   3 CODE TABLE                0          1 ".
Definition b12003 : text := " 002034 Drogue type                                                      CODE TABLE                 0            0   5 CODE TABLE                0          2 ".
Definition b12004 : text := " 002035 Cable length                                                     M                          0            0   9 M                         0          3 ".
Definition b12005 : text := " 002036 Buoy type                                                        CODE TABLE                 0            0   2 CODE TABLE                0          1 ".
Definition b12006 : text := " 002037 Method of tidal observation                                      CODE TABLE                 0            0   3 CODE TABLE                0          1 ".
Definition b12007 : text := " 002038 Method of water temperature and/or salinity measurement          CODE TABLE                 0            0   4 CODE TABLE                0          2 ".
Definition b12008 : text := " 002039 Method of wet-bulb temperature measurement                       CODE TABLE                 0            0   3 CODE TABLE                0          1 ".
Definition b12009 : text := " 002040 Method of removing velocity and motion of platform from current  CODE TABLE                 0            0   4 CODE TABLE                0          2 ".
Definition b12010 : text := " 002041 Method for estimating reports related to synoptic features       CODE TABLE                 0            0   6 CODE TABLE                0          2 ".
Definition b12011 : text := " 002044 Indicator for method of calculating spectral wave data           CODE TABLE                 0            0   4 CODE TABLE                0          2 ".
Definition b12012 : text := " 002045 Indicator for type of platform                                   CODE TABLE                 0            0   4 CODE TABLE                0          2 ".
Definition b12013 : text := " 002046 Wave measurement instrumentation                                 CODE TABLE                 0            0   4 CODE TABLE                0          2 ".
Definition b12014 : text := " 002048 Satellite sensor indicator                                       CODE TABLE                 0            0   4 CODE TABLE                0          2 ".
Definition b12015 : text := " 002049 Geostationary satellite data-processing technique used           FLAG TABLE                 0            0   8 FLAG TABLE                0          3 ".
Definition b12016 : text := " 002050 Geostationary sounder satellite channels used                    FLAG TABLE                 0            0  20 FLAG TABLE                0          7 ".
Definition b12017 : text := " 002051 Indicator to specify observing method for extreme temperatures   CODE TABLE                 0            0   4 CODE TABLE                0          2 ".
Definition b12018 : text := " 002052 Geostationary imager satellite channels used                     FLAG TABLE                 0            0   6 FLAG TABLE                0          2 ".
Definition b12019 : text := " 002053 GOES-I/M brightness temperature characteristics                  CODE TABLE                 0            0   4 CODE TABLE                0          2 ".
Definition b12020 : text := " 002054 GOES-I/M soundings parameter characteristics                     CODE TABLE                 0            0   4 CODE TABLE                0          2 ".
Definition b12021 : text := " 002055 Geostationary soundings statistical parameters                   CODE TABLE                 0            0   4 CODE TABLE                0          2 ".
Definition b12022 : text := " 002056 Geostationary soundings accuracy statistics                      CODE TABLE                 0            0   4 CODE TABLE                0          2 ".
Definition b12023 : text := " 002057 Origin of first guess information for GOES-I/M soundings         CODE TABLE                 0            0   4 CODE TABLE                0          2 ".
Definition b12024 : text := " 002058 Valid times of first guess information for GOES-I/M soundings    CODE TABLE                 0            0   4 CODE TABLE                0          2 ".
Definition b12025 : text := " 002059 Origin of analysis information for GOES-I/M soundings            CODE TABLE                 0            0   4 CODE TABLE                0          2 ".
Definition b12026 : text := " 002060 Origin of surface information for GOES-I/M soundings             CODE TABLE                 0            0   4 CODE TABLE                0          2 ".
Definition b12027 : text := " 002061 Aircraft navigational system                                     CODE TABLE                 0            0   3 CODE TABLE                0          1 ".
Definition b12028 : text := " 002062 Type of aircraft data relay system                               CODE TABLE                 0            0   4 CODE TABLE                0          2 ".
Definition b12029 : text := " 002063 Aircraft roll angle                                              DEGREE                     2       -18000  16 DEGREE                    2          5 ".
Definition b12030 : text := " 002064 Aircraft roll angle quality                                      CODE TABLE                 0            0   2 CODE TABLE                0          1 ".
Definition b12031 : text := " 002065 ACARS ground receiving station                                   CCITTIA5                   0            0  40 CHARACTER                 0          5 ".
Definition b12032 : text := " 002066 Radiosonde ground receiving system                               CODE TABLE                 0            0   6 CODE TABLE                0          2 ".
Definition b12033 : text := " 002067 Radiosonde operating frequency                                   HZ                        -5            0  15 HZ                       -5          5 ".
Definition b12034 : text := " 002070 Original specification of latitude/longitude                     CODE TABLE                 0            0   4 CODE TABLE                0          2 ".
Definition b12035 : text := " 002080 Balloon manufacturer                                             CODE TABLE                 0            0   6 CODE TABLE                0          2 ".
Definition b12036 : text := " 002081 Type of balloon                                                  CODE TABLE                 0            0   5 CODE TABLE                0          2 ".
Definition b12037 : text := " 002082 Weight of balloon                                                KG                         3            0  12 KG                        3          4 ".
Definition b12038 : text := " 002083 Type of balloon shelter                                          CODE TABLE                 0            0   4 CODE TABLE                0          2 ".
Definition b12039 : text := " 002084 Type of gas used in balloon                                      CODE TABLE                 0            0   4 CODE TABLE                0          2 ".
Definition b12040 : text := " 002085 Amount of gas used in balloon                                    KG                         3            0  13 KG                        3          4 ".
Definition b12041 : text := " 002086 Balloon flight train length                                      M                          1            0  10 M                         1          4 ".
Definition b12042 : text := " 002091 Entry sensor 4/20 mA                                             A                          4            0  10 A                         4          3 ".
Definition b12043 : text := " 002095 Type of pressure sensor                                          CODE TABLE                 0            0   5 CODE TABLE                0          2 ".
Definition b12044 : text := " 002096 Type of temperature sensor                                       CODE TABLE                 0            0   5 CODE TABLE                0          2 ".
Definition b12045 : text := " 002097 Type of humidity sensor                                          CODE TABLE                 0            0   5 CODE TABLE                0          2 ".
Definition b12046 : text := " 002100 Radar constant*                                                  DB                         1            0  12 DB                        1          4 ".
Definition b12047 : text := " 002101 Type of antenna                                                  CODE TABLE                 0            0   4 CODE TABLE                0          2 ".
Definition b12048 : text := " 002102 Antenna height above tower base                                  M                          0            0   8 M                         0          3 ".
Definition b12049 : text := " 002103 Radome                                                           FLAG TABLE                 0            0   2 FLAG TABLE                0          1 ".
Definition b12050 : text := " 002104 Antenna polarisation                                             CODE TABLE                 0            0   4 CODE TABLE                0          2 ".
Definition b12051 : text := " 002105 Maximum antenna gain                                             DB                         0            0   6 DB                        0          2 ".
Definition b12052 : text := " 002106 3-dB beamwidth                                                   DEGREE                     1            0   6 DEGREE                    1          2 ".
Definition b12053 : text := " 002107 Sidelobe suppression                                             DB                         0            0   6 DB                        0          2 ".
Definition b12054 : text := " 002108 Crosspol discrimination (on axis)                                DB                         0            0   6 DB                        0          2 ".
Definition b12055 : text := " 002109 Antenna speed (azimuth)                                          DEGREE S-1                 2            0  12 DEGREE S-1                2          4 ".
Definition b12056 : text := " 002110 Antenna speed (elevation)                                        DEGREE S-1                 2            0  12 DEGREE S-1                2          4 ".
Definition b12057 : text := " 002111 Radar incidence angle                                            DEGREE                     1            0  10 DEGREE                    1          4 ".
Definition b12058 : text := " 002112 Radar look angle                                                 DEGREE                     1            0  12 DEGREE                    1          4 ".
Definition b12059 : text := " 002113 Number of azimuth looks                                          NUMERIC                    0            0   4 NUMERIC                   0          2 ".
Definition b12060 : text := " 002114 Antenna effective surface area                                   M2                         0            0  15 M2                        0          5 ".
Definition b12061 : text := " 002115 Type of surface observing equipment                              CODE TABLE                 0            0   5 CODE TABLE                0          2 ".
Definition b12062 : text := " 002121 Mean frequency                                                   HZ                        -8            0   7 HZ                       -8          3 ".
Definition b12063 : text := " 002122 Frequency agility range                                          HZ                        -6         -128   8 HZ                       -6          3 ".
Definition b12064 : text := " 002123 Peak power                                                       W                         -4            0   7 W                        -4          3 ".
Definition b12065 : text := " 002124 Average power                                                    W                         -1            0   7 W                        -1          3 ".
Definition b12066 : text := " 002125 Pulse repetition frequency                                       HZ                        -1            0   8 HZ                       -1          3 ".
Definition b12067 : text := " 002126 Pulse width                                                      S                          7            0   6 S                         7          2 ".
Definition b12068 : text := " 002127 Receiver intermediate frequency                                  HZ                        -6            0   7 HZ                       -6          3 ".
Definition b12069 : text := " 002128 Intermediate frequency bandwidth                                 HZ                        -5            0   6 HZ                       -5          2 ".
Definition b12070 : text := " 002129 Minimum detectable signal                                        DB                         0         -150   5 DB                        0          3 ".
Definition b12071 : text := " 002130 Dynamic range                                                    DB                         0            0   7 DB                        0          3 ".
Definition b12072 : text := " 002131 Sensitivity time control (STC)                                   FLAG TABLE                 0            0   2 FLAG TABLE                0          1 ".
Definition b12073 : text := " 002132 Azimuth pointing accuracy                                        DEGREE                     2            0   6 DEGREE                    2          2 ".
Definition b12074 : text := " 002133 Elevation pointing accuracy                                      DEGREE                     2            0   6 DEGREE                    2          2 ".
Definition b12075 : text := " 002134 Antenna beam azimuth                                             DEGREE                     2            0  16 DEGREE                    2          5 ".
Definition b12076 : text := " 002135 Antenna elevation                                                DEGREE                     2        -9000  15 DEGREE                    2          5 ".
Definition b12077 : text := " 002136 Range processed by range attenuation correction                  M                         -3            0  16 M                        -3          5 ".
Definition b12078 : text := " 002140 Satellite radar beam azimuth angle                               DEGREE                     0            0   9 DEGREE                    0          3 ".
Definition b12079 : text := " 002141 Measurement type                                                 CCITTIA5                   0            0  24 CHARACTER                 0          3 ".
Definition b12080 : text := " 002142 Ozone instrument serial number/ identification                   CCITTIA5                   0            0  32 CHARACTER                 0          4 ".
Definition b12081 : text := " 002143 Ozone instrument type                                            CODE TABLE                 0            0   7 CODE TABLE                0          3 ".
Definition b12082 : text := " 002144 Light source type for Brewer spectro photometer                  CODE TABLE                 0            0   4 CODE TABLE                0          2 ".
Definition b12083 : text := " 002145 Wave length setting for Dobson instruments                       CODE TABLE                 0            0   4 CODE TABLE                0          2 ".
Definition b12084 : text := " 002146 Source conditions for Dobson instruments                         CODE TABLE                 0            0   4 CODE TABLE                0          2 ".
Definition b12085 : text := " 002148 Data collection and/or location system                           CODE TABLE                 0            0   5 CODE TABLE                0          2 ".
Definition b12086 : text := " 002149 Type of data buoy                                                CODE TABLE                 0            0   6 CODE TABLE                0          2 ".
Definition b12087 : text := " 002150 TOVS/ATOVS/AVHRR instrumentation channel number                  CODE TABLE                 0            0   6 CODE TABLE                0          2 ".
Definition b12088 : text := " 002151 Radiometer identifier                                            CODE TABLE                 0            0  11 CODE TABLE                0          4 ".
Definition b12089 : text := " 002152 Satellite instrument used in data processing(6)                  FLAG TABLE                 0            0  31 FLAG TABLE                0         10 ".
Definition b12090 : text := " 002163 Height assignment method                                         CODE TABLE                 0            0   4 CODE TABLE                0          2 ".
Definition b12091 : text := " 002164 Tracer correlation method                                        CODE TABLE                 0            0   3 CODE TABLE                0          1 ".
Definition b12092 : text := " 002166 Radiance type                                                    CODE TABLE                 0            0   4 CODE TABLE                0          2 ".
Definition b12093 : text := " 002167 Radiance computational method                                    CODE TABLE                 0            0   4 CODE TABLE                0          2 ".
Definition b12094 : text := " 002168 Hydrostatic pressure of lower end of cable (thermistor string)   PA                        -3            0  16 KPA                       0          5 ".
Definition b12095 : text := " 002169 Anemometer type                                                  CODE TABLE                 0            0   4 CODE TABLE                0          2 ".
Definition b12096 : text := " 002172 Product type for retrieved atmospheric gases                     CODE TABLE                 0            0   8 CODE TABLE                0          3 ".
Definition b12097 : text := " 002173 Square of the off nadir angle (7)                                DEGREE2                    4            0  10 DEGREE2                   4          4 ".
Definition b12098 : text := " 002175 Method of precipitation measurement                              CODE TABLE                 0            0   4 CODE TABLE                0          2 ".
Definition b12099 : text := " 002176 Method of state of ground measurement                            CODE TABLE                 0            0   4 CODE TABLE                0          2 ".
Definition b12100 : text := " 002177 Method of snow depth measurement                                 CODE TABLE                 0            0   4 CODE TABLE                0          2 ".
Definition b12101 : text := " 002178 Method of liquid content measurement of precipitation            CODE TABLE                 0            0   4 CODE TABLE                0          2 ".
Definition b12102 : text := " 002179 Type of sky condition algorithm                                  CODE TABLE                 0            0   4 CODE TABLE                0          2 ".
Definition b12103 : text := " 002180 Main present weather detecting system                            CODE TABLE                 0            0   4 CODE TABLE                0          2 ".
Definition b12104 : text := " 002181 Supplementary present weather sensor                             FLAG TABLE                 0            0  21 FLAG TABLE                0          7 ".
Definition b12105 : text := " 002182 Visibility measurement system                                    CODE TABLE                 0            0   4 CODE TABLE                0          2 ".
Definition b12106 : text := " 002183 Cloud detection system                                           CODE TABLE                 0            0   4 CODE TABLE                0          2 ".
Definition b12107 : text := " 002184 Type of lightning detection sensor                               CODE TABLE                 0            0   4 CODE TABLE                0          2 ".
Definition b12108 : text := " 002185 Method of evaporation measurement                                CODE TABLE                 0            0   4 CODE TABLE                0          2 ".
Definition b12109 : text := " 002186 Capability to detect precipitation phenomena                     FLAG TABLE                 0            0  30 FLAG TABLE                0         10 ".
Definition b12110 : text := " 002187 Capability to detect other weather phenomena                     FLAG TABLE                 0            0  18 FLAG TABLE                0          6 ".
Definition b12111 : text := " 002188 Capability to detect obscuration                                 FLAG TABLE                 0            0  21 FLAG TABLE                0          7 ".
Definition b12112 : text := " 002189 Capability to discriminate lightning strikes                     FLAG TABLE                 0            0  12 FLAG TABLE                0          4 ".
Definition b12113 : text := " 002190 Lagrangian drifter submergence (% time submerged)                %                          0            0   7 %                         0          3 ".
Definition b12114 : text := " 004001 Year                                                             YEAR                       0            0  12 YEAR                      0          4 ".
Definition b12115 : text := " 004002 Month                                                            MONTH                      0            0   4 MONTH                     0          2 ".
Definition b12116 : text := " 004003 Day                                                              DAY                        0            0   6 DAY                       0          2 ".
Definition b12117 : text := " 004004 Hour                                                             HOUR                       0            0   5 HOUR                      0          2 ".
Definition b12118 : text := " 004005 Minute                                                           MINUTE                     0            0   6 MINUTE                    0          2 ".
Definition b12119 : text := " 004006 Second                                                           SECOND                     0            0   6 SECOND                    0          2 ".
Definition b12120 : text := " 004007 Seconds within a minute (microsecond accuracy)                   SECOND                     6            0  26 SECOND                    6          8 ".
Definition b12121 : text := " 004011 Time increment                                                   YEAR                       0        -1024  11 YEAR                      0          4 ".
Definition b12122 : text := " 004012 Time increment                                                   MONTH                      0        -1024  11 MONTH                     0          4 ".
Definition b12123 : text := " 004013 Time increment                                                   DAY                        0        -1024  11 DAY                       0          4 ".
Definition b12124 : text := " 004014 Time increment                                                   HOUR                       0        -1024  11 HOUR                      0          4 ".
Definition b12125 : text := " 004015 Time increment                                                   MINUTE                     0        -2048  12 MINUTE                    0          4 ".
Definition b12126 : text := " 004016 Time increment                                                   SECOND                     0        -4096  13 SECOND                    0          4 ".
Definition b12127 : text := " 004017 Reference time period for accumulated or extreme data            MINUTE                     0        -1440  12 MINUTE                    0          4 ".
Definition b12128 : text := " 004021 Time period or displacement                                      YEAR                       0        -1024  11 YEAR                      0          4 ".
Definition b12129 : text := " 004022 Time period or displacement                                      MONTH                      0        -1024  11 MONTH                     0          4 ".
Definition b12130 : text := " 004023 Time period or displacement                                      DAY                        0        -1024  11 DAY                       0          4 ".
Definition b12131 : text := " 004024 Time period or displacement                                      HOUR                       0        -2048  12 HOUR                      0          4 ".
Definition b12132 : text := " 004025 Time period or displacement                                      MINUTE                     0        -2048  12 MINUTE                    0          4 ".
Definition b12133 : text := " 004026 Time period or displacement                                      SECOND                     0        -4096  13 SECOND                    0          4 ".
Definition b12134 : text := " 004031 Duration of time relating to following value                     HOUR                       0            0   8 HOUR                      0          3 ".
Definition b12135 : text := " 004032 Duration of time relating to following value                     MINUTE                     0            0   6 MINUTE                    0          2 ".
Definition b12136 : text := " 004041 Time difference, UTC -LMT (see Note 6)                           MINUTE                     0        -1440  12 MINUTE                    0          4 ".
Definition b12137 : text := " 004043 Day of the year                                                  DAY                        0            0   9 DAY                       0          3 ".
Definition b12138 : text := " 004051 Principal time of daily reading of maximum temperature           HOUR                       0            0   5 HOUR                      0          2 ".
Definition b12139 : text := " 004052 Principal time of daily reading of minimum temperature           HOUR                       0            0   5 HOUR                      0          2 ".
Definition b12140 : text := " 004053 Number of days with precipitation equal to or more than 1 mm     NUMERIC                    0            0   6 NUMERIC                   0          2 ".
Definition b12141 : text := " 004059 Times of observation used to compute the reported mean values    FLAG TABLE                 0            0   6 FLAG TABLE                0          2 ".
Definition b12142 : text := " 004065 Short time increment                                             MINUTE                     0         -128   8 MINUTE                    0          2 ".
Definition b12143 : text := " 004073 Short time period or displacement                                DAY                        0         -128   8 DAY                       0          2 ".
Definition b12144 : text := " 004074 Short time period or displacement                                HOUR                       0         -128   8 HOUR                      0          2 ".
Definition b12145 : text := " 004075 Short time period or displacement                                MINUTE                     0         -128   8 MINUTE                    0          2 ".
Definition b12146 : text := " 005001 Latitude (high accuracy)                                         DEGREE                     5     -9000000  25 DEGREE                    5          7 ".
Definition b12147 : text := " 005002 Latitude (coarse accuracy)                                       DEGREE                     2        -9000  15 DEGREE                    2          4 ".
Definition b12148 : text := " 005011 Latitude increment (high accuracy)                               DEGREE                     5     -9000000  25 DEGREE                    5          7 ".
Definition b12149 : text := " 005012 Latitude increment (coarse accuracy)                             DEGREE                     2        -9000  15 DEGREE                    2          4 ".
Definition b12150 : text := " 005021 Bearing or azimuth                                               DEGREE TRUE                2            0  16 DEGREE TRUE               2          5 ".
Definition b12151 : text := " 005022 Solar azimuth                                                    DEGREE TRUE                2            0  16 DEGREE TRUE               2          5 ".
Definition b12152 : text := " 005030 Direction (spectral)                                             DEGREE                     0            0  12 DEGREE                    0          4 ".
Definition b12153 : text := " 005031 Row number                                                       NUMERIC                    0            0  12 NUMERIC                   0          4 ".
Definition b12154 : text := " 005033 Pixel size on horizontal - 1                                     M                         -1            0  16 M                        -1          5 ".
Definition b12155 : text := " 005034 Along track row number                                           NUMERIC                    0            0  11 NUMERIC                   0          4 ".
Definition b12156 : text := " 005036 Ship transect number according to SOOP                           NUMERIC                    0            0   7 NUMERIC                   0          2 ".
Definition b12157 : text := " 005040 Orbit number                                                     NUMERIC                    0            0  24 NUMERIC                   0          8 ".
Definition b12158 : text := " 005041 Scan line number                                                 NUMERIC                    0            0   8 NUMERIC                   0          3 ".
Definition b12159 : text := " 005042 Channel number                                                   NUMERIC                    0            0   6 NUMERIC                   0          2 ".
Definition b12160 : text := " 005043 Field of view number                                             NUMERIC                    0            0   8 NUMERIC                   0          3 ".
Definition b12161 : text := " 005044 Satellite cycle number                                           NUMERIC                    0            0  11 NUMERIC                   0          4 ".
Definition b12162 : text := " 005052 Channel number increment                                         NUMERIC                    0            0   5 NUMERIC                   0          2 ".
Definition b12163 : text := " 005053 Field of view number increment                                   NUMERIC                    0            0   5 NUMERIC                   0          2 ".
Definition b12164 : text := " 006001 Longitude (high accuracy)                                        DEGREE                     5    -18000000  26 DEGREE                    5          8 ".
Definition b12165 : text := " 006002 Longitude (coarse accuracy)                                      DEGREE                     2       -18000  16 DEGREE                    2          5 ".
Definition b12166 : text := " 006011 Longitude increment (high accuracy)                              DEGREE                     5    -18000000  26 DEGREE                    5          8 ".
Definition b12167 : text := " 006012 Longitude increment (coarse accuracy)                            DEGREE                     2       -18000  16 DEGREE                    2          5 ".
Definition b12168 : text := " 006021 Distance                                                         M                         -1            0  13 M                        -1          4 ".
Definition b12169 : text := " 006030 Wave number (spectral)                                           RAD M-1                    5            0  13 RAD M-1                   5          4 ".
Definition b12170 : text := " 006031 Column number                                                    NUMERIC                    0            0  12 NUMERIC                   0          4 ".
Definition b12171 : text := " 006033 Pixel size on horizontal - 2                                     M                         -1            0  16 M                        -1          5 ".
Definition b12172 : text := " 006034 Cross-track cell number                                          NUMERIC                    0            0   7 NUMERIC                   0          3 ".
Definition b12173 : text := " 006040 Radius of confidence                                             M                          0            0  13 M                         0          4 ".
Definition b12174 : text := " 007001 Height of station (see Note 1)                                   M                          0         -400  15 M                         0          5 ".
Definition b12175 : text := " 007002 Height or altitude                                               M                         -1          -40  16 M                        -1          5 ".
Definition b12176 : text := " 007004 Pressure                                                         PA                        -1            0  14 PA                       -1          5 ".
Definition b12177 : text := " 007005 Height increment                                                 M                          0         -400  12 M                         0          4 ".
Definition b12178 : text := " 007006 Height above station                                             M                          0            0  15 M                         0          5 ".
Definition b12179 : text := " 007007 Height                                                           M                          0        -1000  17 M                         0          6 ".
Definition b12180 : text := " 007008 Geopotential                                                     M2 S-2                     0       -10000  20 M2 S-2                    0          7 ".
Definition b12181 : text := " 007009 Geopotential height                                              GPM                        0        -1000  17 GPM                       0          5 ".
Definition b12182 : text := " 007010 Flight level                                                     M                          0        -1024  16 FT                       -1          5 ".
Definition b12183 : text := " 007021 Elevation (see Note 2)                                           DEGREE                     2        -9000  15 DEGREE                    2          5 ".
Definition b12184 : text := " 007022 Solar elevation                                                  DEGREE                     2        -9000  15 DEGREE                    2          5 ".
Definition b12185 : text := " 007024 Satellite zenith angle                                           DEGREE                     2        -9000  15 DEGREE                    2          5 ".
Definition b12186 : text := " 007025 Solar zenith angle                                               DEGREE                     2        -9000  15 DEGREE                    2          5 ".
Definition b12187 : text := " 007030 Height of station ground above mean sea level (see Note 3)       M                          1        -4000  17 M                         1          5 ".
Definition b12188 : text := " 007031 Height of barometer above mean sea level (see Note 4)            M                          1        -4000  17 M                         1          5 ".
Definition b12189 : text := " 007032 Height of sensor above local ground (or deck of marine platform) M                          2            0  16 M                         2          5 ".
Definition b12190 : text := " 007033 Height of sensor above water surface (see Note 6)                M                          1            0  12 M                         1          4 ".
Definition b12191 : text := " 007061 Depth below land surface                                         M                          2            0  14 M                         2          5 ".
Definition b12192 : text := " 007062 Depth below sea/water surface                                    M                          1            0  17 M                         1          6 ".
Definition b12193 : text := " 007064 Height above station (sensor height artificially corrected) (see M                          0            0   4 M                         0          2 ".
Definition b12194 : text := " 007070 Drogue depth                                                     M                          0            0  10 M                         0          4 ".
Definition b12195 : text := " 008001 Vertical sounding significance                                   FLAG TABLE                 0            0   7 FLAG TABLE                0          3 ".
Definition b12196 : text := " 008002 Vertical significance (surface observations)                     CODE TABLE                 0            0   6 CODE TABLE                0          2 ".
Definition b12197 : text := " 008003 Vertical significance (satellite observations)                   CODE TABLE                 0            0   6 CODE TABLE                0          2 ".
Definition b12198 : text := " 008004 Phase of aircraft flight                                         CODE TABLE                 0            0   3 CODE TABLE                0          1 ".
Definition b12199 : text := " 008005 Meteorological attribute significance                            CODE TABLE                 0            0   4 CODE TABLE                0          2 ".
Definition b12200 : text := " 008006 Ozone vertical sounding significance                             FLAG TABLE                 0            0   9 FLAG TABLE                0          3 ".
Definition b12201 : text := " 008007 Dimensional significance                                         CODE TABLE                 0            0   4 CODE TABLE                0          2 ".
Definition b12202 : text := " 008008 Radiation vertical sounding significance                         FLAG TABLE                 0            0   9 FLAG TABLE                0          3 ".
Definition b12203 : text := " 008009 Detailed phase of flight                                         CODE TABLE                 0            0   4 CODE TABLE                0          2 ".
Definition b12204 : text := " 008010 Surface qualifier (temperature data)                             CODE TABLE                 0            0   5 CODE TABLE                0          2 ".
Definition b12205 : text := " 008011 Meteorological feature                                           CODE TABLE                 0            0   6 CODE TABLE                0          2 ".
Definition b12206 : text := " 008012 Land/sea qualifier                                               CODE TABLE                 0            0   2 CODE TABLE                0          1 ".
Definition b12207 : text := " 008013 Day/night qualifier                                              CODE TABLE                 0            0   2 CODE TABLE                0          1 ".
Definition b12208 : text := " 008014 Qualifier for runway visual range                                CODE TABLE                 0            0   4 CODE TABLE                0          2 ".
Definition b12209 : text := " 008016 Change qualifier of a trend-type forecast or an aerodrome foreca CODE TABLE                 0            0   3 CODE TABLE                0          1 ".
Definition b12210 : text := " 008017 Qualifier of the time when the forecast change is expected       CODE TABLE                 0            0   2 CODE TABLE                0          1 ".
Definition b12211 : text := " 008018 SEAWINDS land/ice surface type                                   FLAG TABLE                 0            0  17 FLAG TABLE                0          6 ".
Definition b12212 : text := " 008020 Total number of missing entities (with respect to accumulation o NUMERIC                    0            0  16 NUMERIC                   0          5 ".
Definition b12213 : text := " 008021 Time significance                                                CODE TABLE                 0            0   5 CODE TABLE                0          2 ".
Definition b12214 : text := " 008022 Total number (with respect to accumulation or average)           NUMERIC                    0            0  16 NUMERIC                   0          5 ".
Definition b12215 : text := " 008023 First order statistics                                           CODE TABLE                 0            0   6 CODE TABLE                0          2 ".
Definition b12216 : text := " 008024 Difference statistics                                            CODE TABLE                 0            0   6 CODE TABLE                0          2 ".
Definition b12217 : text := " 008025 Time difference qualifier                                        CODE TABLE                 0            0   4 CODE TABLE                0          2 ".
Definition b12218 : text := " 008029 Remotely sensed surface type                                     CODE TABLE                 0            0   8 CODE TABLE                0          3 ".
Definition b12219 : text := " 008030 Manual on Codes (Volume I.1, Section C) Code table from which da NUMERIC                    0            0  13 NUMERIC                   0          4 ".
Definition b12220 : text := " 008031 Data category CREX table A                                       NUMERIC                    0            0   8 NUMERIC                   0          3 ".
Definition b12221 : text := " 008033 Method of derivation of percentage confidence                    CODE TABLE                 0            0   7 CODE TABLE                0          3 ".
Definition b12222 : text := " 008035 Type of monitoring exercise                                      CODE TABLE                 0            0   3 CODE TABLE                0          1 ".
Definition b12223 : text := " 008036 Type of centre or station performing monitoring                  CODE TABLE                 0            0   3 CODE TABLE                0          1 ".
Definition b12224 : text := " 008040 Flight Level significance                                        CODE TABLE                 0            0   6 CODE TABLE                0          2 ".
Definition b12225 : text := " 008041 Data significance                                                CODE TABLE                 0            0   5 CODE TABLE                0          2 ".
Definition b12226 : text := " 008050 Qualifier for number of missing values in calculation of statist CODE TABLE                 0            0   4 CODE TABLE                0          2 ".
Definition b12227 : text := " 008051 Qualifier for number of missing values in calculation of statist CODE TABLE                 0            0   3 CODE TABLE                0          1 ".
Definition b12228 : text := " 008052 Condition for which number of days of occurrence follows         CODE TABLE                 0            0   5 CODE TABLE                0          2 ".
Definition b12229 : text := " 008053 Day of occurrence qualifier                                      CODE TABLE                 0            0   2 CODE TABLE                0          1 ".
Definition b12230 : text := " 008060 Sample scanning mode significance                                CODE TABLE                 0            0   4 CODE TABLE                0          2 ".
Definition b12231 : text := " 008070 TOVS/ATOVS product qualifier                                     CODE TABLE                 0            0   4 CODE TABLE                0          2 ".
Definition b12232 : text := " 008072 Pixel(s) type                                                    CODE TABLE                 0            0   3 CODE TABLE                0          1 ".
Definition b12233 : text := " 008074 Altimeter echo type                                              CODE TABLE                 0            0   2 CODE TABLE                0          1 ".
Definition b12234 : text := " 008075 Ascending/Descending Orbit Qualifier                             CODE TABLE                 0            0   2 CODE TABLE                0          1 ".
Definition b12235 : text := " 008076 Type of band                                                     CODE TABLE                 0            0   6 CODE TABLE                0          2 ".
Definition b12236 : text := " 008080 Qualifier for GTSPP quality flag                                 CODE TABLE                 0            0   6 CODE TABLE                0          2 ".
Definition b12237 : text := " 010001 Height of land surface                                           M                          0         -400  15 M                         0          5 ".
Definition b12238 : text := " 010002 Height                                                           M                         -1          -40  16 M                        -1          5 ".
Definition b12239 : text := " 010003 Geopotential                                                     M2 S-2                    -1         -400  17 M2 S-2                   -1          6 ".
Definition b12240 : text := " 010007 Height                                                           M                          0        -1000  17 M                         0          6 ".
Definition b12241 : text := " 010008 Geopotential                                                     M2 S-2                     0       -10000  20 M2 S-2                    0          7 ".
Definition b12242 : text := " 010009 Geopotential height                                              GPM                        0        -1000  17 GPM                       0          5 ".
Definition b12243 : text := " 010010 Minimum pressure reduced to mean sea level                       PA                        -1            0  14 PA                       -1          5 ".
Definition b12244 : text := " 010011 Maximum pressure reduced to mean sea level                       PA                        -1            0  14 PA                       -1          5 ".
Definition b12245 : text := " 010031 In direction of the North Pole, distance from the Earth's centre M                          2  -1073741824  31 M                         2         10 ".
Definition b12246 : text := " 010040 Number of retrieved layers                                       NUMERIC                    0            0  10 NUMERIC                   0          4 ".
Definition b12247 : text := " 010050 Standard deviation altitude                                      M                          2            0  16 M                         2          5 ".
Definition b12248 : text := " 010061 3-hour pressure change                                           PA                        -1         -500  10 PA                       -1          4 ".
Definition b12249 : text := " 010062 24-hour pressure change                                          PA                        -1        -1000  11 PA                       -1          4 ".
Definition b12250 : text := " 010063 Characteristic of pressure tendency                              CODE TABLE                 0            0   4 CODE TABLE                0          2 ".
Definition b12251 : text := " 010070 Indicated aircraft altitude                                      M                          0         -400  16 M                         0          5 ".
Definition b12252 : text := " 011001 Wind direction                                                   DEGREE TRUE                0            0   9 DEGREE TRUE               0          3 ".
Definition b12253 : text := " 011002 Wind speed                                                       M S-1                      1            0  12 M S-1                     1          4 ".
Definition b12254 : text := " 011003 u-component                                                      M S-1                      1        -4096  13 M S-1                     1          4 ".
Definition b12255 : text := " 011004 v-component                                                      M S-1                      1        -4096  13 M S-1                     1          4 ".
Definition b12256 : text := " 011005 w-component                                                      PA S-1                     1         -512  10 PA S-1                    1          4 ".
Definition b12257 : text := " 011006 w-component                                                      M S-1                      2        -4096  13 M S-1                     2          4 ".
Definition b12258 : text := " 011010 Wind direction associated with wind speed which follows          DEGREE TRUE                0            0   9 DEGREE TRUE               0          3 ".
Definition b12259 : text := " 011011 Wind direction at 10 m                                           DEGREE TRUE                0            0   9 DEGREE TRUE               0          3 ".
Definition b12260 : text := " 011012 Wind speed at 10 m                                               M S-1                      1            0  12 M S-1                     1          4 ".
Definition b12261 : text := " 011013 Wind direction at 5 m                                            DEGREE TRUE                0            0   9 DEGREE TRUE               0          3 ".
Definition b12262 : text := " 011014 Wind speed at 5 m                                                M S-1                      1            0  12 M S-1                     1          4 ".
Definition b12263 : text := " 011016 Extreme counterclockwise wind direction of a variable wind       DEGREE TRUE                0            0   9 DEGREE TRUE               0          3 ".
Definition b12264 : text := " 011017 Extreme clockwise wind direction of a variable wind              DEGREE TRUE                0            0   9 DEGREE TRUE               0          3 ".
Definition b12265 : text := " 011019 Steadiness of wind (6)                                           %                          0            0   7 %                         0          3 ".
Definition b12266 : text := " 011021 Relative vorticity                                               S-1                        9       -65536  17 S-1                       9          6 ".
Definition b12267 : text := " 011022 Divergence                                                       S-1                        9       -65536  17 S-1                       9          6 ".
Definition b12268 : text := " 011023 Velocity potential                                               M2 S-1                    -2       -65536  17 M2 S-1                   -2          6 ".
Definition b12269 : text := " 011031 Degree of turbulence                                             CODE TABLE                 0            0   4 CODE TABLE                0          2 ".
Definition b12270 : text := " 011032 Height of base of turbulence                                     M                         -1          -40  16 M                        -1          5 ".
Definition b12271 : text := " 011033 Height of top of turbulence                                      M                         -1          -40  16 M                        -1          5 ".
Definition b12272 : text := " 011034 Vertical gust velocity                                           M S-1                      1        -1024  11 M S-1                     1          4 ".
Definition b12273 : text := " 011035 Vertical gust acceleration                                       M S-2                      2        -8192  14 M S-2                     2          5 ".
Definition b12274 : text := " 011036 Maximum derived equivalent vertical gust speed                   M S-1                      1            0  10 M S-1                     1          4 ".
Definition b12275 : text := " 011037 Turbulence Index                                                 CODE TABLE                 0            0   6 CODE TABLE                0          2 ".
Definition b12276 : text := " 011038 Time of occurrence of Peak Eddy Dissipation Rate                 CODE TABLE                 0            0   5 CODE TABLE                0          2 ".
Definition b12277 : text := " 011039 Extended time of occurrence of peak  Eddy Dissipation Rate       CODE TABLE                 0            0   6 CODE TABLE                0          2 ".
Definition b12278 : text := " 011040 Maximum wind speed (mean wind)                                   M S-1                      1            0  12 M S-1                     1          4 ".
Definition b12279 : text := " 011041 Maximum wind gust speed                                          M S-1                      1            0  12 M S-1                     1          4 ".
Definition b12280 : text := " 011042 Maximum wind speed (10-min mean wind)                            M S-1                      1            0  12 M S-1                     1          4 ".
Definition b12281 : text := " 011043 Maximum wind gust direction                                      DEGREE TRUE                0            0   9 DEGREE TRUE               0          3 ".
Definition b12282 : text := " 011044 Mean wind direction for surface - 1500 m (5000 feet)             DEGREE TRUE                0            0   9 DEGREE TRUE               0          3 ".
Definition b12283 : text := " 011045 Mean wind speed for surface - 1500 m (5000 feet)                 M S-1                      1            0  12 M S-1                     1          4 ".
Definition b12284 : text := " 011046 Maximum instantaneous wind speed                                 M S-1                      1            0  12 M S-1                     1          4 ".
Definition b12285 : text := " 011047 Maximum instantaneous wind speed over 10 minutes                 M S-1                      1            0  12 M S-1                     1          4 ".
Definition b12286 : text := " 011049 Standard deviation of wind direction                             DEGREE TRUE                0            0   9 DEGREE TRUE               0          3 ".
Definition b12287 : text := " 011050 Standard deviation of horizontal wind speed                      M S-1                      1            0  12 M S-1                     1          4 ".
Definition b12288 : text := " 011051 Standard deviation of vertical wind speed                        M S-1                      1            0   8 M S-1                     1          3 ".
Definition b12289 : text := " 011052 Formal uncertainty in wind speed                                 M S-1                      2            0  13 M S-1                     2          5 ".
Definition b12290 : text := " 011053 Formal uncertainty in wind direction                             DEGREE TRUE                2            0  15 DEGREE TRUE               2          5 ".
Definition b12291 : text := " 011061 Absolute wind shear in 1 km layer below                          M S-1                      1            0  12 M S-1                     1          4 ".
Definition b12292 : text := " 011062 Absolute wind shear in 1 km layer above                          M S-1                      1            0  12 M S-1                     1          4 ".
Definition b12293 : text := " 011070 Designator of the runway affected by wind shear (including ALL)  CCITTIA5                   0            0  32 CHARACTER                 0          4 ".
Definition b12294 : text := " 011071 Turbulent vertical momentum flux                                 M2 S-2                     3         -128  14 M2 S-2                    3          5 ".
Definition b12295 : text := " 011072 Turbulent vertical buoyancy flux                                 K M S-1                    3         -128  11 K M S-1                   3          4 ".
Definition b12296 : text := " 011073 Turbulent kinetic energy                                         M2 S-2                     2        -1024  13 M2 S-2                    2          4 ".
Definition b12297 : text := " 011074 Dissipation energy                                               M2 S-2                     2        -1024  10 M2 S-2                    2          4 ".
Definition b12298 : text := " 011075 Mean turbulence intensity (eddy dissipation rate)                M2/3 S-1                   2            0   8 M2/3 S-1                  2          3 ".
Definition b12299 : text := " 011076 Peak turbulence intensity (eddy dissipation rate)                M2/3 S-1                   2            0   8 M2/3 S-1                  2          3 ".
Definition b12300 : text := " 011077 Reporting interval or averaging time for Eddy Dissipation Rate   S                          0            0  12 S                         0          4 ".
Definition b12301 : text := " 011081 Model wind direction at 10m                                      DEGREE TRUE                2            0  16 DEGREE TRUE               2          5 ".
Definition b12302 : text := " 011082 Model wind speed at 10m                                          M S-1                      2            0  14 M S-1                     2          4 ".
Definition b12303 : text := " 012001 Temperature/dry-bulb temperature                                 K                          1            0  12 °C                        1          3 ".
Definition b12304 : text := " 012002 Wet-bulb temperature                                             K                          1            0  12 °C                        1          3 ".
Definition b12305 : text := " 012003 Dew-point temperature                                            K                          1            0  12 °C                        1          3 ".
Definition b12306 : text := " 012004 Dry-bulb temperature at 2 m                                      K                          1            0  12 °C                        1          3 ".
Definition b12307 : text := " 012005 Wet-bulb temperature at 2 m                                      K                          1            0  12 °C                        1          3 ".
Definition b12308 : text := " 012006 Dew-point temperature at 2 m                                     K                          1            0  12 °C                        1          3 ".
Definition b12309 : text := " 012007 Virtual temperature                                              K                          1            0  12 °C                        1          3 ".
Definition b12310 : text := " 012011 Maximum temperature, at height and over period specified         K                          1            0  12 °C                        1          3 ".
Definition b12311 : text := " 012012 Minimum temperature, at height and over period specified         K                          1            0  12 °C                        1          3 ".
Definition b12312 : text := " 012013 Ground minimum temperature, past 12 hours                        K                          1            0  12 °C                        1          3 ".
Definition b12313 : text := " 012014 Maximum temperature at 2 m, past 12 hours                        K                          1            0  12 °C                        1          3 ".
Definition b12314 : text := " 012015 Minimum temperature at 2 m, past 12 hours                        K                          1            0  12 °C                        1          3 ".
Definition b12315 : text := " 012016 Maximum temperature at 2 m, past 24 hours                        K                          1            0  12 °C                        1          3 ".
Definition b12316 : text := " 012017 Minimum temperature at 2 m, past 24 hours                        K                          1            0  12 °C                        1          3 ".
Definition b12317 : text := " 012021 Maximum temperature at 2m                                        K                          2            0  16 °C                        2          4 ".
Definition b12318 : text := " 012022 Minimum temperature at 2m                                        K                          2            0  16 °C                        2          4 ".
Definition b12319 : text := " 012030 Soil temperature                                                 K                          1            0  12 °C                        1          3 ".
Definition b12320 : text := " 012051 Standard deviation temperature                                   K                          1            0  10 °C                        1          3 ".
Definition b12321 : text := " 012052 Highest daily mean temperature                                   K                          1            0  12 °C                        1          3 ".
Definition b12322 : text := " 012053 Lowest daily mean temperature                                    K                          1            0  12 °C                        1          3 ".
Definition b12323 : text := " 012061 Skin temperature                                                 K                          1            0  12 °C                        1          3 ".
Definition b12324 : text := " 012062 Equivalent black body temperature                                K                          1            0  12 °C                        1          3 ".
Definition b12325 : text := " 012063 Brightness temperature                                           K                          1            0  12 °C                        1          3 ".
Definition b12326 : text := " 012064 Instrument temperature                                           K                          1            0  12 K                         1          4 ".
Definition b12327 : text := " 012065 Standard deviation brightness temperature                        K                          1            0  12 K                         1          4 ".
Definition b12328 : text := " 012070 Warm load temperature                                            K                          2            0  16 K                         2          5 ".
Definition b12329 : text := " 012071 Coldest cluster temperature                                      K                          1            0  12 K                         1          4 ".
Definition b12330 : text := " 012072 Radiance                                                         W M-2 SR-1                 6            0  31 W M-2SR-1                 6          9 ".
Definition b12331 : text := " 012075 Spectral radiance                                                W M-3 SR-1                -3            0  16 W M-3SR-1                -3          5 ".
Definition b12332 : text := " 012076 Radiance                                                         W M-2 SR-1                 3            0  16 W M-2SR-1                 3          5 ".
Definition b12333 : text := " 012101 Temperature/dry-bulb temperature                                 K                          2            0  16 °C                        2          4 ".
Definition b12334 : text := " 012102 Wet-bulb temperature                                             K                          2            0  16 °C                        2          4 ".
Definition b12335 : text := " 012103 Dew-point temperature                                            K                          2            0  16 °C                        2          4 ".
Definition b12336 : text := " 012104 Dry-bulb temperature at 2m                                       K                          2            0  16 °C                        2          4 ".
Definition b12337 : text := " 012105 Web-bulb temperature at 2m                                       K                          2            0  16 °C                        2          4 ".
Definition b12338 : text := " 012106 Dew-point temperature at 2m                                      K                          2            0  16 °C                        2          4 ".
Definition b12339 : text := " 012107 Virtual temperature                                              K                          2            0  16 °C                        2          4 ".
Definition b12340 : text := " 012111 Maximum temperature, at height and over period specified         K                          2            0  16 °C                        2          4 ".
Definition b12341 : text := " 012112 Minimum temperature, at height and over period specified         K                          2            0  16 °C                        2          4 ".
Definition b12342 : text := " 012113 Ground minimum temperature, past 12 hours                        K                          2            0  16 °C                        2          4 ".
Definition b12343 : text := " 012114 Maximum temperature at 2m, past 12 hours                         K                          2            0  16 °C                        2          4 ".
Definition b12344 : text := " 012115 Minimum temperature at 2m, past 12 hours                         K                          2            0  16 °C                        2          4 ".
Definition b12345 : text := " 012116 Maximum temperature at 2m, past 24 hours                         K                          2            0  16 °C                        2          4 ".
Definition b12346 : text := " 012117 Minimum temperature at 2m, past 24 hours                         K                          2            0  16 °C                        2          4 ".
Definition b12347 : text := " 012118 Maximum temperature at height specified, past 24 hours           K                          2            0  16 °C                        2          4 ".
Definition b12348 : text := " 012119 Minimum  temperature at height specified, past 24 hours          K                          2            0  16 °C                        2          4 ".
Definition b12349 : text := " 012130 Soil temperature                                                 K                          2            0  16 °C                        2          4 ".
Definition b12350 : text := " 012151 Standard deviation of daily mean temperature                     K                          2            0  12 °C                        2          4 ".
Definition b12351 : text := " 012152 Highest daily mean temperature                                   K                          2            0  16 °C                        2          4 ".
Definition b12352 : text := " 012153 Lowest daily mean temperature                                    K                          2            0  16 °C                        2          4 ".
Definition b12353 : text := " 012161 Skin temperature                                                 K                          2            0  16 °C                        2          4 ".
Definition b12354 : text := " 012162 Equivalent black body temperature                                K                          2            0  16 °C                        2          4 ".
Definition b12355 : text := " 012163 Brightness temperature                                           K                          2            0  16 °C                        2          4 ".
Definition b12356 : text := " 012164 Instrument temperature                                           K                          2            0  16 K                         2          5 ".
Definition b12357 : text := " 012171 Coldest cluster temperature                                      K                          2            0  16 K                         2          5 ".
Definition b12358 : text := " 015001 Total ozone                                                      DU                         0            0  10 DU                        0          4 ".
Definition b12359 : text := " 015002 Air mass (slant path at 22 km)                                   NUMERIC                    2            0  10 NUMERIC                   2          3 ".
Definition b12360 : text := " 015003 Measured ozone partial pressure (sounding)                       PASCAL                     4            0   9 NBAR                      0          3 ".
Definition b12361 : text := " 015004 Ozone sounding correction factor                                 NUMERIC                    3            0  11 NUMERIC                   3          4 ".
Definition b12362 : text := " 015005 Ozone p                                                          DU                         0            0  10 DU                        0          3 ".
Definition b12363 : text := " 015011 Log 10 of integrated electron density                            LOG (1/M2)                 3        14000  13 LOG (M-2)                 3          4 ".
Definition b12364 : text := " 015015 Maximum image spectral component before normalization            NUMERIC                    0            0  31 NUMERIC                   0         10 ".
Definition b12365 : text := " 015020 Integrated 03 density                                            KG M-2                     8            0  21 KG M-2                    8          7 ".
Definition b12366 : text := " 015031 Atmospheric path delay in satellite signal                       M                          4        10000  15 M                         4          5 ".
Definition b12367 : text := " 015032 Estimated error in atmospheric path delay                        M                          4            0  10 M                         4          4 ".
Definition b12368 : text := " 015033 Difference in path delays for limb views at extremes of scan     M                          5       -10000  15 M                         5          5 ".
Definition b12369 : text := " 015034 Estimated error in path delay difference                         M                          5            0  14 M                         5          5 ".
Definition b12370 : text := " 015035 Component of zenith path delay due to water vapour               M                          4            0  14 M                         4          5 ".
Definition b12371 : text := " 019001 Type of synoptic feature                                         CODE TABLE                 0            0   6 CODE TABLE                0          2 ".
Definition b12372 : text := " 019002 Effective radius of feature                                      M                         -2            0  12 M                        -2          4 ".
Definition b12373 : text := " 019003 Wind speed threshold                                             M S-1                      0            0   8 M S-1                     0          3 ".
Definition b12374 : text := " 019004 Effective radius with respect to wind speeds above threshold     M                         -2            0  12 M                        -2          4 ".
Definition b12375 : text := " 019005 Direction of motion of feature                                   DEGREE TRUE                0            0   9 DEGREE TRUE               0          3 ".
Definition b12376 : text := " 019006 Speed of motion of feature                                       M S-1                      2            0  14 M S-1                     2          5 ".
Definition b12377 : text := " 019007 Effective radius of feature                                      M                         -3            0  12 M                        -3          4 ".
Definition b12378 : text := " 019008 Vertical extent of circulation                                   CODE TABLE                 0            0   3 CODE TABLE                0          1 ".
Definition b12379 : text := " 019009 Effective radius with respect to wind speeds above threshold (la M                         -3            0  12 M                        -3          4 ".
Definition b12380 : text := " 019010 Method for tracking the centre of synoptic feature               CODE TABLE                 0            0   4 CODE TABLE                0          2 ".
Definition b12381 : text := " 020001 Horizontal visibility                                            M                         -1            0  13 M                        -1          4 ".
Definition b12382 : text := " 020002 Vertical visibility                                              M                         -1            0   7 M                        -1          3 ".
Definition b12383 : text := " 020003 Present weather (see note 1)                                     CODE TABLE                 0            0   9 CODE TABLE                0          3 ".
Definition b12384 : text := " 020004 Past weather (1) (see note 2)                                    CODE TABLE                 0            0   5 CODE TABLE                0          2 ".
Definition b12385 : text := " 020005 Past weather (2) (see note 2)                                    CODE TABLE                 0            0   5 CODE TABLE                0          2 ".
Definition b12386 : text := " 020008 Cloud distribution for aviation                                  CODE TABLE                 0            0   5 CODE TABLE                0          2 ".
Definition b12387 : text := " 020009 General Weather Indicator (TAF/METAR)                            CODE TABLE                 0            0   4 CODE TABLE                0          2 ".
Definition b12388 : text := " 020010 Cloud cover (total)                                              %                          0            0   7 %                         0          3 ".
Definition b12389 : text := " 020011 Cloud amount                                                     CODE TABLE                 0            0   4 CODE TABLE                0          2 ".
Definition b12390 : text := " 020012 Cloud type                                                       CODE TABLE                 0            0   6 CODE TABLE                0          2 ".
Definition b12391 : text := " 020013 Height of base of cloud                                          M                         -1          -40  11 M                        -1          4 ".
Definition b12392 : text := " 020014 Height of top of cloud                                           M                         -1          -40  11 M                        -1          4 ".
Definition b12393 : text := " 020015 Pressure at base of cloud                                        PA                        -1            0  14 PA                       -1          5 ".
Definition b12394 : text := " 020016 Pressure at top of cloud                                         PA                        -1            0  14 PA                       -1          5 ".
Definition b12395 : text := " 020017 Cloud top description                                            CODE TABLE                 0            0   4 CODE TABLE                0          2 ".
Definition b12396 : text := " 020018 Tendency of runway visual range                                  CODE TABLE                 0            0   2 CODE TABLE                0          1 ".
Definition b12397 : text := " 020019 Significant present or forecast weather                          CCITTIA5                   0            0  72 CHARACTER                 0          9 ".
Definition b12398 : text := " 020020 Significant recent weather phenomena                             CCITTIA5                   0            0  32 CHARACTER                 0          4 ".
Definition b12399 : text := " 020021 Type of precipitation                                            FLAG TABLE                 0            0  30 FLAG TABLE                0         10 ".
Definition b12400 : text := " 020022 Character of precipitation                                       CODE TABLE                 0            0   4 CODE TABLE                0          2 ".
Definition b12401 : text := " 020023 Other weather phenomena                                          FLAG TABLE                 0            0  18 FLAG TABLE                0          6 ".
Definition b12402 : text := " 020024 Intensity of phenomena                                           CODE TABLE                 0            0   3 CODE TABLE                0          1 ".
Definition b12403 : text := " 020025 Obscuration                                                      FLAG TABLE                 0            0  21 FLAG TABLE                0          7 ".
Definition b12404 : text := " 020026 Character of obscuration                                         CODE TABLE                 0            0   4 CODE TABLE                0          2 ".
Definition b12405 : text := " 020027 Phenomena occurrence                                             FLAG TABLE                 0            0   9 FLAG TABLE                0          3 ".
Definition b12406 : text := " 020029 Rain flag                                                        CODE TABLE                 0            0   2 CODE TABLE                0          1 ".
Definition b12407 : text := " 020031 Ice deposit (thickness)                                          M                          2            0   7 M                         2          3 ".
Definition b12408 : text := " 020032 Rate of ice accretion                                            CODE TABLE                 0            0   3 CODE TABLE                0          1 ".
Definition b12409 : text := " 020033 Cause of ice accretion                                           FLAG TABLE                 0            0   4 FLAG TABLE                0          2 ".
Definition b12410 : text := " 020034 Sea ice concentration                                            CODE TABLE                 0            0   5 CODE TABLE                0          2 ".
Definition b12411 : text := " 020035 Amount and type of ice                                           CODE TABLE                 0            0   4 CODE TABLE                0          2 ".
Definition b12412 : text := " 020036 Ice situation                                                    CODE TABLE                 0            0   5 CODE TABLE                0          2 ".
Definition b12413 : text := " 020037 Ice development                                                  CODE TABLE                 0            0   5 CODE TABLE                0          2 ".
Definition b12414 : text := " 020039 Ice distance                                                     M                         -1            0  13 M                        -1          4 ".
Definition b12415 : text := " 020041 Airframe icing                                                   CODE TABLE                 0            0   4 CODE TABLE                0          2 ".
Definition b12416 : text := " 020042 Airframe icing present                                           CODE TABLE                 0            0   2 CODE TABLE                0          1 ".
Definition b12417 : text := " 020043 Peak liquid water content                                        KG M-3                     4            0   7 KG M-3                    4          2 ".
Definition b12418 : text := " 020044 Average liquid water content                                     KG M-3                     4            0   7 KG M-3                    4          2 ".
Definition b12419 : text := " 020045 Supercooled large droplet (SLD) conditions                       CODE TABLE                 0            0   2 CODE TABLE                0          1 ".
Definition b12420 : text := " 020051 Amount of low clouds                                             %                          0            0   7 %                         0          3 ".
Definition b12421 : text := " 020052 Amount of middle clouds                                          %                          0            0   7 %                         0          3 ".
Definition b12422 : text := " 020053 Amount of high clouds                                            %                          0            0   7 %                         0          3 ".
Definition b12423 : text := " 020061 Runway visual range (RVR)                                        M                          0            0  12 M                         0          4 ".
Definition b12424 : text := " 020062 State of the ground (with or without snow)                       CODE TABLE                 0            0   5 CODE TABLE                0          2 ".
Definition b12425 : text := " 020063 Special phenomena                                                CODE TABLE                 0            0  10 CODE TABLE                0          4 ".
Definition b12426 : text := " 020065 Snow cover (see note 4)                                          %                          0            0   7 %                         0          3 ".
Definition b12427 : text := " 020070 Minimum number of atmospherics                                   NUMERIC                    0            0   7 NUMERIC                   0          3 ".
Definition b12428 : text := " 020071 Accuracy of fix and rate of atmospherics                         CODE TABLE                 0            0   4 CODE TABLE                0          2 ".
Definition b12429 : text := " 020081 Cloud amount in segment                                          %                          0            0   7 %                         0          3 ".
Definition b12430 : text := " 020082 Amount segment cloud free                                        %                          0            0   7 %                         0          3 ".
Definition b12431 : text := " 020090 Special clouds                                                   CODE TABLE                 0            0   4 CODE TABLE                0          2 ".
Definition b12432 : text := " 021001 Horizontal reflectivity                                          DB                         0          -64   7 DB                        0          3 ".
Definition b12433 : text := " 021002 Vertical reflectivity                                            DB                         0          -64   7 DB                        0          3 ".
Definition b12434 : text := " 021003 Differential reflectivity                                        DB                         1           -5   7 DB                        1          3 ".
Definition b12435 : text := " 021005 Linear depolarisation ratio                                      DB                         0          -65   6 DB                        0          2 ".
Definition b12436 : text := " 021006 Circular depolarisation ratio                                    DB                         0          -65   6 DB                        0          2 ".
Definition b12437 : text := " 021011 Doppler mean velocity in X-direction                             M S-1                      0         -128   8 M S-1                     0          3 ".
Definition b12438 : text := " 021012 Doppler mean velocity in Y-direction                             M S-1                      0         -128   8 M S-1                     0          3 ".
Definition b12439 : text := " 021013 Doppler mean velocity in Z-direction                             M S-1                      0         -128   8 M S-1                     0          3 ".
Definition b12440 : text := " 021014 Doppler mean velocity (radial)                                   M S-1                      1        -4096  13 M S-1                     1          4 ".
Definition b12441 : text := " 021017 Doppler velocity spectral width                                  M S-1                      1            0   8 M S-1                     1          3 ".
Definition b12442 : text := " 021021 Echo tops                                                        M                         -3            0   4 M                        -3          2 ".
Definition b12443 : text := " 021030 Signal to noise ratio                                            DB                         0          -32   8 DB                        0          3 ".
Definition b12444 : text := " 021031 Vertically integrated liquid-water content                       KG M-2                     0            0   7 KG M-2                    0          3 ".
Definition b12445 : text := " 021036 Radar rainfall intensity                                         M S-1                      7            0  12 M S-1                     7          4 ".
Definition b12446 : text := " 021041 Bright-band height                                               M                         -2            0   8 M                        -2          3 ".
Definition b12447 : text := " 021051 Signal power above 1 mW                                          DB                         0         -256   8 DB                        0          3 ".
Definition b12448 : text := " 021062 Backscatter                                                      DB                         2        -5000  13 DB                        2          4 ".
Definition b12449 : text := " 021063 Radiometric resolution (noise value)                             %                          1            0  10 %                         1          4 ".
Definition b12450 : text := " 021064 Clutter noise estimate                                           NUMERIC                    0            0   8 NUMERIC                   0          3 ".
Definition b12451 : text := " 021065 Missing packet counter                                           NUMERIC                    0         -127   8 NUMERIC                   0          3 ".
Definition b12452 : text := " 021066 Wave scatterometer product confidence data                       FLAG TABLE                 0            0  12 FLAG TABLE                0          4 ".
Definition b12453 : text := " 021067 Wind product confidence data                                     FLAG TABLE                 0            0  13 FLAG TABLE                0          5 ".
Definition b12454 : text := " 021068 Radar altimeter product confidence data                          FLAG TABLE                 0            0   8 FLAG TABLE                0          3 ".
Definition b12455 : text := " 021069 SST product confidence data                                      FLAG TABLE                 0            0  10 FLAG TABLE                0          4 ".
Definition b12456 : text := " 021070 SST product confidence data (SADIST-2)                           FLAG TABLE                 0            0  23 FLAG TABLE                0          6 ".
Definition b12457 : text := " 021071 Peakiness                                                        NUMERIC                    0            0  16 NUMERIC                   0          5 ".
Definition b12458 : text := " 021072 Satellite altimeter calibration status                           FLAG TABLE                 0            0   4 FLAG TABLE                0          2 ".
Definition b12459 : text := " 021073 Satelllite altimeter instrument mode                             FLAG TABLE                 0            0   9 FLAG TABLE                0          3 ".
Definition b12460 : text := " 021075 Image spectrum intensity                                         NUMERIC                    0            0   8 NUMERIC                   0          3 ".
Definition b12461 : text := " 021076 Representation of intensities                                    CODE TABLE                 0            0   3 CODE TABLE                0          1 ".
Definition b12462 : text := " 021077 Altitude correction (ionosphere)                                 M                          3            0  14 M                         3          5 ".
Definition b12463 : text := " 021078 Altitude correction (dry troposphere)                            M                          3            0   9 M                         3          3 ".
Definition b12464 : text := " 021079 Altitude correction (wet troposphere)                            M                          3         2000  10 M                         3          4 ".
Definition b12465 : text := " 021080 Altitude correction (calibration constant)                       M                          3            0  11 M                         3          4 ".
Definition b12466 : text := " 021081 Open loop correction (height-time loop)                          M                          3            0  10 M                         3          4 ".
Definition b12467 : text := " 021082 Open loop correction (auto gain control)                         DB                         3        -3000  14 DB                        3          5 ".
Definition b12468 : text := " 021083 Warm target calibration                                          NUMERIC                    0            0  16 NUMERIC                   0          5 ".
Definition b12469 : text := " 021084 Cold target calibration                                          NUMERIC                    0            0  16 NUMERIC                   0          5 ".
Definition b12470 : text := " 021085 ATSR sea surface temperature across- track band number           NUMERIC                    0            0   4 NUMERIC                   0          2 ".
Definition b12471 : text := " 021091 Radar signal Doppler spectrum 0th moment                         DB                         0         -100   8 DB                        0          3 ".
Definition b12472 : text := " 021092 RASS signal Doppler spectrum 0th moment, referring to RASS signa DB                         0         -100   8 DB                        0          3 ".
Definition b12473 : text := " 021101 Number of vector ambiguities                                     NUMERIC                    0            0   3 NUMERIC                   0          1 ".
Definition b12474 : text := " 021102 Index of selected wind vector                                    NUMERIC                    0            0   3 NUMERIC                   0          1 ".
Definition b12475 : text := " 021103 Total number of sigma-0 measurements                             NUMERIC                    0            0   5 NUMERIC                   0          2 ".
Definition b12476 : text := " 021104 Likelihood computed for solution                                 NUMERIC                    3       -30000  15 NUMERIC                   3          5 ".
Definition b12477 : text := " 021105 Normalized radar cross-section                                   DB                         2       -10000  14 DB                        2          5 ".
Definition b12478 : text := " 021106 Kp variance coefficient (Alpha)                                  NUMERIC                    3            0  14 NUMERIC                   3          5 ".
Definition b12479 : text := " 021107 Kp variance coefficient (Beta)                                   NUMERIC                    8            0  16 NUMERIC                   8          5 ".
Definition b12480 : text := " 021109 SEAWINDS wind vector cell quality                                FLAG TABLE                 0            0  17 FLAG TABLE                0          6 ".
Definition b12481 : text := " 021110 Number of inner-beam Sigma-0 (forward of satellite)              NUMERIC                    0            0   6 NUMERIC                   0          2 ".
Definition b12482 : text := " 021111 Number of outer-beam Sigma-0 (forward of satellite)              NUMERIC                    0            0   6 NUMERIC                   0          2 ".
Definition b12483 : text := " 021112 Number of inner-beam Sigma-0 (aft of satellite)                  NUMERIC                    0            0   6 NUMERIC                   0          2 ".
Definition b12484 : text := " 021113 Number of outer-beam Sigma-0 (aft of satellite)                  NUMERIC                    0            0   6 NUMERIC                   0          2 ".
Definition b12485 : text := " 021114 Kp variance coefficent (Gamma)                                   DB                         3      -140000  18 DB                        3          6 ".
Definition b12486 : text := " 021115 SEAWINDS sigma-0 quality                                         FLAG TABLE                 0            0  17 FLAG TABLE                0          6 ".
Definition b12487 : text := " 021116 SEAWINDS sigma-0 mode                                            FLAG TABLE                 0            0  17 FLAG TABLE                0          6 ".
Definition b12488 : text := " 021117 Sigma-0 variance quality control                                 NUMERIC                    2            0  16 NUMERIC                   2          5 ".
Definition b12489 : text := " 021118 Attenuation correction on sigma-0                                DB                         2       -10000  14 DB                        2          5 ".
Definition b12490 : text := " 021119 Wind scatterometer geophysical model function                    CODE TABLE                 0            0   6 CODE TABLE                0          2 ".
Definition b12491 : text := " 021120 Probability of rain                                              NUMERIC                    3            0  10 NUMERIC                   3          4 ".
Definition b12492 : text := " 021121 SEAWINDS NOF* rain index                                         NUMERIC                    0            0   8 NUMERIC                   0          3 ".
Definition b12493 : text := " 021122 Attenuation correction of sigma-0 (from tB)                      DB                         2       -10000  14 DB                        2          5 ".
Definition b12494 : text := " 021123 SEAWINDS normalized radar cross section                          DB                         2       -30000  15 DB                        2          5 ".
Definition b12495 : text := " 021128 Number of valid points per second used to derive previous parame NUMERIC                    0            0   8 NUMERIC                   0          3 ".
Definition b12496 : text := " 022001 Direction of waves                                               DEGREE TRUE                0            0   9 DEGREE TRUE               0          3 ".
Definition b12497 : text := " 022002 Direction of wind waves                                          DEGREE TRUE                0            0   9 DEGREE TRUE               0          3 ".
Definition b12498 : text := " 022003 Direction of swell waves                                         DEGREE TRUE                0            0   9 DEGREE TRUE               0          3 ".
Definition b12499 : text := " 022004 Direction of current                                             DEGREE TRUE                0            0   9 DEGREE TRUE               0          3 ".
Definition b12500 : text := " 022011 Period of waves                                                  S                          0            0   6 S                         0          2 ".
Definition b12501 : text := " 022012 Period of wind waves                                             S                          0            0   6 S                         0          2 ".
Definition b12502 : text := " 022013 Period of swell waves                                            S                          0            0   6 S                         0          2 ".
Definition b12503 : text := " 022021 Height of waves                                                  M                          1            0  10 M                         1          4 ".
Definition b12504 : text := " 022022 Height of wind waves                                             M                          1            0  10 M                         1          4 ".
Definition b12505 : text := " 022023 Height of swell waves                                            M                          1            0  10 M                         1          4 ".
Definition b12506 : text := " 022025 Standard deviation wave height                                   M                          2            0  10 M                         2          4 ".
Definition b12507 : text := " 022026 Standard deviation of significant wave height                    M                          2            0  10 M                         2          4 ".
Definition b12508 : text := " 022031 Speed of current                                                 M S-1                      2            0  13 M S-1                     2          4 ".
Definition b12509 : text := " 022035 Tidal elevation with respect to local chart datum                M                          2            0  14 M                         2          4 ".
Definition b12510 : text := " 022036 Meteorological residual tidal elevation (surge or offset)        M                          2            0  14 M                         2          4 ".
Definition b12511 : text := " 022037 Tidal elevation with respect to national land datum              M                          3       -10000  15 M                         3          5 ".
Definition b12512 : text := " 022038 Tidal elevation with respect to local chart datum                M                          3       -10000  15 M                         3          5 ".
Definition b12513 : text := " 022039 Meteorological residual tidal elevation (surge or offset)        M                          3        -5000  12 M                         3          4 ".
Definition b12514 : text := " 022040 Meteorological residual tidal elevation (surge or offset)        M                          3        -5000  14 M                         3          5 ".
Definition b12515 : text := " 022041 Sea-surface temperature (15-day running mean)                    K                          1            0  12 K                         1          4 ".
Definition b12516 : text := " 022042 Sea/water temperature                                            K                          1            0  12 K                         1          4 ".
Definition b12517 : text := " 022043 Sea/water temperature                                            K                          2            0  15 K                         2          5 ".
Definition b12518 : text := " 022044 Sound velocity                                                   M S-1                      1            0  14 M S-1                     1          5 ".
Definition b12519 : text := " 022045 Sea/water temperature                                            K                          3            0  19 K                         3          6 ".
Definition b12520 : text := " 022050 Standard deviation sea-surface temperature                       K                          2            0   8 K                         2          3 ".
Definition b12521 : text := " 022055 Float cycle number                                               NUMERIC                    0            0  10 NUMERIC                   0          3 ".
Definition b12522 : text := " 022056 Direction of profile                                             CODE TABLE                 0            0   2 CODE TABLE                0          1 ".
Definition b12523 : text := " 022061 State of the sea                                                 CODE TABLE                 0            0   4 CODE TABLE                0          2 ".
Definition b12524 : text := " 022062 Salinity                                                         PART PER THOUSAND          2            0  14 PART PER THOUSAND         2          5 ".
Definition b12525 : text := " 022063 Total water depth                                                M                          0            0  14 M                         0          5 ".
Definition b12526 : text := " 022064 Salinity                                                         PART PER THOUSAND          3            0  17 PART PER THOUSAND         3          6 ".
Definition b12527 : text := " 022065 Water pressure                                                   PA                        -3            0  17 PA                       -3          6 ".
Definition b12528 : text := " 022066 Water conductivity                                               S M-1                      6            0  26 S M-1                     6          8 ".
Definition b12529 : text := " 022067 Instrument type for water temperature profile measurement        CODE TABLE                 0            0  10 CODE TABLE                0          4 ".
Definition b12530 : text := " 022068 Water temperature profile recorder types                         CODE TABLE                 0            0   7 CODE TABLE                0          3 ".
Definition b12531 : text := " 022070 Significant wave height                                          M                          2            0  13 M                         2          4 ".
Definition b12532 : text := " 022071 Spectral peak wave period                                        S                          1            0   9 S                         1          3 ".
Definition b12533 : text := " 022072 Spectral peak wave length                                        M                          0            0  13 M                         0          4 ".
Definition b12534 : text := " 022073 Maximum wave height                                              M                          2            0  13 M                         2          4 ".
Definition b12535 : text := " 022074 Average wave period                                              S                          1            0   9 S                         1          3 ".
Definition b12536 : text := " 022075 Average wave length                                              M                          0            0  13 M                         0          4 ".
Definition b12537 : text := " 022076 Direction from which dominant waves are coming                   DEGREE TRUE                0            0   9 DEGREE TRUE               0          3 ".
Definition b12538 : text := " 022077 Directional spread of dominant wave                              DEGREE                     0            0   9 DEGREE                    0          3 ".
Definition b12539 : text := " 022078 Duration of wave record                                          S                          0            0  12 S                         0          4 ".
Definition b12540 : text := " 022079 Length of wave record                                            M                          0            0  16 M                         0          5 ".
Definition b12541 : text := " 022080 Waveband central frequency                                       HZ                         3            0  10 HZ                        3          4 ".
Definition b12542 : text := " 022081 Waveband central wave number                                     M-1                        5            0  13 M-1                       5          4 ".
Definition b12543 : text := " 022082 Maximum non-directional spectral wave density                    M2 S                       2            0  20 M2 S                      2          7 ".
Definition b12544 : text := " 022083 Maximum non-directional spectral wave number                     M3                         2            0  20 M3                        2          7 ".
Definition b12545 : text := " 022084 Band containing maximum non- directional spectral wave density   NUMERIC                    0            0   7 NUMERIC                   0          3 ".
Definition b12546 : text := " 022085 Spectral wave density ratio                                      NUMERIC                    0            0   7 NUMERIC                   0          3 ".
Definition b12547 : text := " 022086 Mean direction from which waves are coming                       DEGREE TRUE                0            0   9 DEGREE TRUE               0          3 ".
Definition b12548 : text := " 022087 Principal direction from which waves are coming                  DEGREE TRUE                0            0   9 DEGREE TRUE               0          3 ".
Definition b12549 : text := " 022088 First normalized polar coordinate from Fourier coefficients      NUMERIC                    2            0   7 NUMERIC                   2          3 ".
Definition b12550 : text := " 022089 Second normalized polar coordinate from Fourier coefficients     NUMERIC                    2            0   7 NUMERIC                   2          3 ".
Definition b12551 : text := " 022090 Non-directional spectral estimate by wave frequency              M2 S                       2            0  20 M2 S                      2          7 ".
Definition b12552 : text := " 022091 Non-directional spectral estimate by wave number                 M3                         2            0  20 M3                        2          7 ".
Definition b12553 : text := " 022092 Directional spectral estimate by wave frequency                  M2 RAD-1 S                 2            0  20 M2 RAD-1 S                2          7 ".
Definition b12554 : text := " 022093 Directional spectral estimate by wave number                     M4                         2            0  20 M4                        2          7 ".
Definition b12555 : text := " 022094 Total number of wave bands                                       NUMERIC                    0            0   7 NUMERIC                   0          3 ".
Definition b12556 : text := " 022095 Directional spread of individual waves                           DEGREE                     0            0   8 DEGREE                    0          3 ".
Definition b12557 : text := " 022096 Spectral band width                                              S-1                        3            0   4 S-1                       3          2 ".
Definition b12558 : text := " 022097 Mean wavelength > 731 m of image spectrum at low wave numbers    M                          0            0  14 M                         0          5 ".
Definition b12559 : text := " 022098 Wavelength spread (wavelength > 731 m) at low wave numbers       M                          0            0  14 M                         0          5 ".
Definition b12560 : text := " 022099 Mean direction at low wave numbers (wavelength > 731 m)          DEGREE TRUE                0            0   9 DEGREE TRUE               0          3 ".
Definition b12561 : text := " 022100 Direction spread at low wave numbers(wavelength > 731 m)         DEGREE                     0            0   9 DEGREE                    0          3 ".
Definition b12562 : text := " 022101 Total energy (wavelength > 731m) at low wave numbers             NUMERIC                    0            0  31 NUMERIC                   0         10 ".
Definition b12563 : text := " 022120 Tide station automated water level check                         CODE TABLE                 0            0   5 CODE TABLE                0          2 ".
Definition b12564 : text := " 022121 Tide station manual water level check                            CODE TABLE                 0            0   5 CODE TABLE                0          2 ".
Definition b12565 : text := " 022122 Tide station automated meteorological data check                 CODE TABLE                 0            0   5 CODE TABLE                0          2 ".
Definition b12566 : text := " 022123 Tide station manual meteorological data check                    CODE TABLE                 0            0   5 CODE TABLE                0          2 ".
Definition b12567 : text := " 022141 Sea-surface temperature (15-day running mean)                    K                          2            0  15 K                         2          5 ".
Definition b12568 : text := " 023001 Accident early notification - article applicable                 CODE TABLE                 0            0   3 CODE TABLE                0          1 ".
Definition b12569 : text := " 023002 Activity or facility involved in incident                        CODE TABLE                 0            0   5 CODE TABLE                0          2 ".
Definition b12570 : text := " 023003 Type of release                                                  CODE TABLE                 0            0   3 CODE TABLE                0          1 ".
Definition b12571 : text := " 023004 Countermeasures taken near border                                CODE TABLE                 0            0   3 CODE TABLE                0          1 ".
Definition b12572 : text := " 023005 Cause of incident                                                CODE TABLE                 0            0   2 CODE TABLE                0          1 ".
Definition b12573 : text := " 023006 Incident situation                                               CODE TABLE                 0            0   3 CODE TABLE                0          1 ".
Definition b12574 : text := " 023007 Characteristics of release                                       CODE TABLE                 0            0   3 CODE TABLE                0          1 ".
Definition b12575 : text := " 023008 State of current release                                         CODE TABLE                 0            0   2 CODE TABLE                0          1 ".
Definition b12576 : text := " 023009 State of expected release                                        CODE TABLE                 0            0   2 CODE TABLE                0          1 ".
Definition b12577 : text := " 023016 Possibility of significant chemical toxic health effect          CODE TABLE                 0            0   2 CODE TABLE                0          1 ".
Definition b12578 : text := " 023017 Flow discharge of major recipient                                M3 S-1                     6            0  20 M3 S-1                    6          7 ".
Definition b12579 : text := " 023018 Release behaviour over time                                      CODE TABLE                 0            0   3 CODE TABLE                0          1 ".
Definition b12580 : text := " 023019 Actual release height                                            M                          0       -15000  17 M                         0          6 ".
Definition b12581 : text := " 023021 Effective release height                                         M                          0       -15000  17 M                         0          6 ".
Definition b12582 : text := " 023022 Distance of release point or site of incident                    M                          0            0  24 M                         0          8 ".
Definition b12583 : text := " 023023 Main transport speed in the atmosphere                           M S-1                      1            0  12 M S-1                     1          4 ".
Definition b12584 : text := " 023024 Main transport speed in water                                    M S-1                      2            0  13 M S-1                     2          4 ".
Definition b12585 : text := " 023025 Main transport speed in ground water                             M S-1                      2            0  13 M S-1                     2          4 ".
Definition b12586 : text := " 023027 Main transport direction in the atmosphere                       DEGREE TRUE                0            0   9 DEGREE TRUE               0          3 ".
Definition b12587 : text := " 023028 Main transport direction in water                                DEGREE TRUE                0            0   9 DEGREE TRUE               0          3 ".
Definition b12588 : text := " 023029 Main transport direction in ground water                         DEGREE TRUE                0            0   9 DEGREE TRUE               0          3 ".
Definition b12589 : text := " 023031 Possibility that plume will encounter precipitation in State in  CODE TABLE                 0            0   2 CODE TABLE                0          1 ".
Definition b12590 : text := " 023032 Plume will encounter change in wind direction and/or speed flag  CODE TABLE                 0            0   2 CODE TABLE                0          1 ".
Definition b12591 : text := " 024001 Estimate of amount of radioactivity released up to specified tim BQ*                      -11            0  28 BQ*                      -11          9 ".
Definition b12592 : text := " 024002 Estimated maximum potential release                              BQ                       -11            0  28 BQ                       -11          9 ".
Definition b12593 : text := " 024003 Composition of release                                           CODE TABLE                 0            0   5 CODE TABLE                0          2 ".
Definition b12594 : text := " 024004 Element name                                                     CCITTIA5                   0            0  16 CHARACTER                 0          2 ".
Definition b12595 : text := " 024005 Isotope mass                                                     NUMERIC                    0            0   9 NUMERIC                   0          3 ".
Definition b12596 : text := " 024011 Dose                                                             MSV*/**                    2            0  32 MSV*/**                   2         10 ".
Definition b12597 : text := " 024012 Trajectory dose (defined location and expected time of arrival)  MSV                        2            0  32 MSV                       2         10 ".
Definition b12598 : text := " 024013 Gamma dose in air along the main transport path (defined locatio MSV                        2            0  32 MSV                       2         10 ".
Definition b12599 : text := " 024021 Air concentration (of named isotope type including gross beta)   BQ M-3                     2            0  32 BQ M-3                    2         10 ".
Definition b12600 : text := " 024022 Concentration in precipitation (of names isotope type)           BQ 1-1                     2            0  32 BQ L-1                    2         10 ".
Definition b12601 : text := " 024023 Pulse rate of beta radiation                                     S-1                        1            0  14 S-1                       1          4 ".
Definition b12602 : text := " 024024 Pulse rate of gamma radiation                                    S-1                        1            0  14 S-1                       1          4 ".
Definition b12603 : text := " 025002 Number of gates averaged                                         NUMERIC                    0            0   4 NUMERIC                   0          2 ".
Definition b12604 : text := " 025003 Number of integrated pulses                                      NUMERIC                    0            0   8 NUMERIC                   0          3 ".
Definition b12605 : text := " 025004 Echo processing                                                  CODE TABLE                 0            0   2 CODE TABLE                0          1 ".
Definition b12606 : text := " 025005 Echo integration                                                 CODE TABLE                 0            0   2 CODE TABLE                0          1 ".
Definition b12607 : text := " 025006 Z to R conversion                                                CODE TABLE                 0            0   3 CODE TABLE                0          1 ".
Definition b12608 : text := " 025007 Z to R conversion factor                                         NUMERIC                    0            0  12 NUMERIC                   0          4 ".
Definition b12609 : text := " 025008 Z to R conversion exponent                                       NUMERIC                    2            0   9 NUMERIC                   2          3 ".
Definition b12610 : text := " 025009 Calibration method                                               FLAG TABLE                 0            0   4 FLAG TABLE                0          2 ".
Definition b12611 : text := " 025010 Clutter treatment                                                CODE TABLE                 0            0   4 CODE TABLE                0          2 ".
Definition b12612 : text := " 025011 Ground occultation correction (screening)                        CODE TABLE                 0            0   2 CODE TABLE                0          1 ".
Definition b12613 : text := " 025012 Range attenuation correction                                     CODE TABLE                 0            0   2 CODE TABLE                0          1 ".
Definition b12614 : text := " 025013 Bright-band correction                                           FLAG TABLE                 0            0   2 FLAG TABLE                0          1 ".
Definition b12615 : text := " 025014 Azimuth clutter cut-off (see Note 1)                             NUMERIC                    0            0  12 NUMERIC                   0          4 ".
Definition b12616 : text := " 025015 Radome attenuation correction                                    FLAG TABLE                 0            0   2 FLAG TABLE                0          1 ".
Definition b12617 : text := " 025016 Clear-air attenuation correction                                 DB M-1                     5            0   6 DB M-1                    5          2 ".
Definition b12618 : text := " 025017 Precipitation attenuation correction                             FLAG TABLE                 0            0   2 FLAG TABLE                0          1 ".
Definition b12619 : text := " 025018 A to Z law for attenuation factor                                NUMERIC                    7            0   6 NUMERIC                   7          2 ".
Definition b12620 : text := " 025019 A to Z law for attenuation exponent                              NUMERIC                    2            0   7 NUMERIC                   2          3 ".
Definition b12621 : text := " 025020 Mean speed estimation                                            CODE TABLE                 0            0   2 CODE TABLE                0          1 ".
Definition b12622 : text := " 025021 Wind computation enhancement                                     FLAG TABLE                 0            0   8 FLAG TABLE                0          3 ".
Definition b12623 : text := " 025025 Battery voltage                                                  V                          1            0   9 V                         1          3 ".
Definition b12624 : text := " 025030 Running mean sea-surface temperature usage                       CODE TABLE                 0            0   2 CODE TABLE                0          1 ".
Definition b12625 : text := " 025032 Wind profiler mode information*                                  CODE TABLE                 0            0   2 CODE TABLE                0          1 ".
Definition b12626 : text := " 025033 Wind profiler submode information*                               CODE TABLE                 0            0   2 CODE TABLE                0          1 ".
Definition b12627 : text := " 025034 Wind profiler quality control test results*                      FLAG TABLE                 0            0   4 FLAG TABLE                0          2 ".
Definition b12628 : text := " 025036 Atmospherics location method                                     CODE TABLE                 0            0   4 CODE TABLE                0          2 ".
Definition b12629 : text := " 025040 CO2 wind product derivation                                      CODE TABLE                 0            0   4 CODE TABLE                0          2 ".
Definition b12630 : text := " 025041 Moving platform direction reporting method                       CODE TABLE                 0            0   2 CODE TABLE                0          1 ".
Definition b12631 : text := " 025042 Moving platform speed reporting method                           CODE TABLE                 0            0   2 CODE TABLE                0          1 ".
Definition b12632 : text := " 025043 Wave sampling interval (time)                                    S                          4            0  15 S                         4          5 ".
Definition b12633 : text := " 025044 Wave sampling interval (space)                                   M                          2            0  14 M                         2          5 ".
Definition b12634 : text := " 025045 HIRS channel combination                                         FLAG TABLE                 0            0  21 FLAG TABLE                0          7 ".
Definition b12635 : text := " 025046 MSU channel combination                                          FLAG TABLE                 0            0   5 FLAG TABLE                0          2 ".
Definition b12636 : text := " 025047 SSU channel combination                                          FLAG TABLE                 0            0   4 FLAG TABLE                0          2 ".
Definition b12637 : text := " 025048 AMSU-A channel combination                                       FLAG TABLE                 0            0  16 FLAG TABLE                0          6 ".
Definition b12638 : text := " 025049 AMSU-B channel combination                                       FLAG TABLE                 0            0   6 FLAG TABLE                0          2 ".
Definition b12639 : text := " 025050 Principal component score                                        NUMERIC                    4      -131072  18 NUMERIC                   4          6 ".
Definition b12640 : text := " 025051 AVHRR channel combination                                        FLAG TABLE                 0            0   7 FLAG TABLE                0          3 ".
Definition b12641 : text := " 025053 Observation quality                                              FLAG TABLE                 0            0  12 FLAG TABLE                0          4 ".
Definition b12642 : text := " 025054 SSMIS Subframe ID nember                                         NUMERIC                    0            0   5 NUMERIC                   0          2 ".
Definition b12643 : text := " 025055 Multiplexer housekeeping                                         K                          2            0  16 K                         2          5 ".
Definition b12644 : text := " 025060 Software identification (see Note 2)                             NUMERIC                    0            0  14 NUMERIC                   0          5 ".
Definition b12645 : text := " 025061 Software identification and version number                       CCITTIA5                   0            0  96 CHARACTER                 0         12 ".
Definition b12646 : text := " 025065 Orientation correction (azimuth)                                 DEGREE                     2        -1000  11 DEGREE                    2          4 ".
Definition b12647 : text := " 025066 Orientation correction (elevation)                               DEGREE                     2        -1000  11 DEGREE                    2          4 ".
Definition b12648 : text := " 025067 Radiosonde release point pressure correction                     PA                         0        -8000  14 PA                        0          4 ".
Definition b12649 : text := " 025068 Number of archive recomputes                                     NUMERIC                    0            0   7 NUMERIC                   0          3 ".
Definition b12650 : text := " 025069 Flight level pressure corrections                                FLAG TABLE                 0            0   8 FLAG TABLE                0          3 ".
Definition b12651 : text := " 025070 Major frame count                                                NUMERIC                    0            0   4 NUMERIC                   0          2 ".
Definition b12652 : text := " 025071 Frame count                                                      NUMERIC                    0            0   5 NUMERIC                   0          2 ".
Definition b12653 : text := " 025075 Satellite antenna corrections version number                     NUMERIC                    0            0   5 NUMERIC                   0          2 ".
Definition b12654 : text := " 025076 Log-10 of (Temperature-radiance central wave number) for ATOVS   LOG M-1                    8            0  30 LOG M-1                   8         10 ".
Definition b12655 : text := " 025077 Bandwidth correction coefficient 1 for ATOVS                     NUMERIC                    5      -100000  18 NUMERIC                   5          7 ".
Definition b12656 : text := " 025078 Bandwidth correction coefficient 2 for ATOVS                     NUMERIC                    5            0  17 NUMERIC                   5          6 ".
Definition b12657 : text := " 025079 Albedo-radiance solar filtered irradiance for ATOVS              W M-2                      4            0  24 W M-2                     4          8 ".
Definition b12658 : text := " 025080 Albedo-radiance equivalent filter width for ATOVS                M                         10            0  14 M                        10          5 ".
Definition b12659 : text := " 025085 Fraction of clear pixels in HIRS FOV                             NUMERIC                    0            0   7 NUMERIC                   0          3 ".
Definition b12660 : text := " 025086 Depth correction indicator                                       CODE TABLE                 0            0   2 CODE TABLE                0          1 ".
Definition b12661 : text := " 025091 Structure constant of the refraction index (Cn2)                 DB                         3       -18192  13 DB                        3          5 ".
Definition b12662 : text := " 025092 Acoustic propagation velocity                                    M S-1                      2        28000  14 M S-1                     2          5 ".
Definition b12663 : text := " 025093 RASS computation correction                                      FLAG TABLE                 0            0   8 FLAG TABLE                0          3 ".
Definition b12664 : text := " 025095 Altimeter state flag                                             FLAG TABLE                 0            0   2 FLAG TABLE                0          1 ".
Definition b12665 : text := " 025096 Radiometer state flag                                            FLAG TABLE                 0            0   5 FLAG TABLE                0          2 ".
Definition b12666 : text := " 025097 Three dimensional error estimate of the navigator orbit          CODE TABLE                 0            0   4 CODE TABLE                0          2 ".
Definition b12667 : text := " 025100 XBT/XCTD fall rate equation coefficient a                        NUMERIC                    5            0  20 NUMERIC                   5          6 ".
Definition b12668 : text := " 025101 XBT/XCTD fall rate equation coefficient b                        NUMERIC                    5      -500000  21 NUMERIC                   5          6 ".
Definition b12669 : text := " 026001 Principal time of daily reading in UTC of maximum temperature    HOUR                       1            0  12 HOUR                      1          3 ".
Definition b12670 : text := " 026002 Principal time of daily reading in UTC of minimum temperature    HOUR                       1            0  12 HOUR                      1          3 ".
Definition b12671 : text := " 026003 Time difference                                                  MINUTE                     0        -1440  12 MINUTE                    0          4 ".
Definition b12672 : text := " 026010 Hours included                                                   FLAG TABLE                 0            0  26 FLAG TABLE                0          9 ".
Definition b12673 : text := " 026020 Duration of precipitation                                        MINUTE                     0            0  11 MINUTE                    0          4 ".
Definition b12674 : text := " 027001 Latitude (high accuracy)                                         DEGREE                     5     -9000000  25 DEGREE                    5          7 ".
Definition b12675 : text := " 027002 Latitude (coarse accuracy)                                       DEGREE                     2        -9000  15 DEGREE                    2          4 ".
Definition b12676 : text := " 027003 Alternate latitude (coarse accuracy)                             DEGREE                     2        -9000  15 DEGREE                    2          4 ".
Definition b12677 : text := " 027004 Alternate latitude (high accuracy)                               DEGREE                     5     -9000000  25 DEGREE                    5          7 ".
Definition b12678 : text := " 027020 Satellite location counter                                       NUMERIC                    0            0  16 NUMERIC                   0          5 ".
Definition b12679 : text := " 027021 Satellite sublocation dimension                                  NUMERIC                    0            0  16 NUMERIC                   0          5 ".
Definition b12680 : text := " 027031 In direction of 0 degrees longitude, distance from the Earths c M                          2  -1073741824  31 M                         2         10 ".
Definition b12681 : text := " 028001 Longitude (high accuracy)                                        DEGREE                     5    -18000000  26 DEGREE                    5          8 ".
Definition b12682 : text := " 028002 Longitude (coarse accuracy)                                      DEGREE                     2       -18000  16 DEGREE                    2          5 ".
Definition b12683 : text := " 028003 Alternate longitude (coarse accuracy)                            DEGREE                     2       -18000  16 DEGREE                    2          5 ".
Definition b12684 : text := " 028004 Alternate longitude (high accuracy)                              DEGREE                     5    -18000000  26 DEGREE                    5          8 ".
Definition b12685 : text := " 028031 In direction 90 degrees East, distance from the Earths centre   M                          2  -1073741824  31 M                         2         10 ".
Definition b12686 : text := " 029001 Projection type                                                  CODE TABLE                 0            0   3 CODE TABLE                0          1 ".
Definition b12687 : text := " 029002 Co-ordinate grid type                                            CODE TABLE                 0            0   3 CODE TABLE                0          1 ".
Definition b12688 : text := " 029193 Long Origin                                                      DEGREE                     2       -18000  16 DEGREE                    2          5 ".
Definition b12689 : text := " 029194 Lat Origin                                                       DEGREE                     2        -9000  15 DEGREE                    2          5 ".
Definition b12690 : text := " 029195 False Easting                                                    METERS                     0            0  26 METERS                    0          8 ".
Definition b12691 : text := " 029196 False Northing                                                   METERS                     0            0  26 METERS                    0          8 ".
Definition b12692 : text := " 029199 Semi-major axis of rotation elipsoid                             METERS                     0            0  26 METERS                    0          8 ".
Definition b12693 : text := " 029200 Semi-minor axis of rotation elipsoid                             METERS                     0            0  26 METERS                    0          8 ".
Definition b12694 : text := " 029201 Projection type                                                  CODE TABLE                 0            0   5 CODE TABLE                0          2 ".
Definition b12695 : text := " 030001 Pixel value (4 bits)                                             NUMERIC                    0            0   4 NUMERIC                   0          2 ".
Definition b12696 : text := " 030002 Pixel value (8 bits)                                             NUMERIC                    0            0   8 NUMERIC                   0          3 ".
Definition b12697 : text := " 030004 Pixel value (16 bits)                                            NUMERIC                    0            0  16 NUMERIC                   0          5 ".
Definition b12698 : text := " 030021 Number of pixels per row                                         NUMERIC                    0            0  12 NUMERIC                   0          4 ".
Definition b12699 : text := " 030022 Number of pixels per column                                      NUMERIC                    0            0  12 NUMERIC                   0          4 ".
Definition b12700 : text := " 030031 Picture type                                                     CODE TABLE                 0            0   4 CODE TABLE                0          2 ".
Definition b12701 : text := " 030032 Combination with other data                                      FLAG TABLE                 0            0  16 FLAG TABLE                0          6 ".
Definition b12702 : text := " 031000 Short delayed descriptor replication factor                      NUMERIC                    0            0   1 NUMERIC                   0          1 ".
Definition b12703 : text := " 031001 Delayed descriptor replication factor                            NUMERIC                    0            0   8 NUMERIC                   0          3 ".
Definition b12704 : text := " 031002 Extended delayed descriptor replication factor                   NUMERIC                    0            0  16 NUMERIC                   0          6 ".
Definition b12705 : text := " 031011 Delayed descriptor and data repetition factor                    NUMERIC                    0            0   8 NUMERIC                   0          3 ".
Definition b12706 : text := " 031012 Extended delayed descriptor and data repetition factor           NUMERIC                    0            0  16 NUMERIC                   0          6 ".
Definition b12707 : text := " 033002 Quality information                                              CODE TABLE                 0            0   2 CODE TABLE                0          1 ".
Definition b12708 : text := " 033003 Quality information                                              CODE TABLE                 0            0   3 CODE TABLE                0          1 ".
Definition b12709 : text := " 033005 Quality information (AWS data)                                   FLAG TABLE                 0            0  30 FLAG TABLE                0         10 ".
Definition b12710 : text := " 033006 Internal measurement status information (AWS)                    CODE TABLE                 0            0   3 CODE TABLE                0          1 ".
Definition b12711 : text := " 033007 Per cent confidence                                              %                          0            0   7 %                         0          3 ".
Definition b12712 : text := " 033015 Data quality check indicator                                     CODE TABLE                 0            0   6 CODE TABLE                0          2 ".
Definition b12713 : text := " 033020 Quality control indication of following value                    CODE TABLE                 0            0   3 CODE TABLE                0          1 ".
Definition b12714 : text := " 033021 Quality of following value                                       CODE TABLE                 0            0   2 CODE TABLE                0          1 ".
Definition b12715 : text := " 033022 Quality of buoy satellite transmission                           CODE TABLE                 0            0   2 CODE TABLE                0          1 ".
Definition b12716 : text := " 033023 Quality of buoy location                                         CODE TABLE                 0            0   2 CODE TABLE                0          1 ".
Definition b12717 : text := " 033024 Station elevation quality mark (for mobile stations)             CODE TABLE                 0            0   4 CODE TABLE                0          2 ".
Definition b12718 : text := " 033025 ACARS interpolated values                                        CODE TABLE                 0            0   3 CODE TABLE                0          1 ".
Definition b12719 : text := " 033026 Moisture quality                                                 CODE TABLE                 0            0   6 CODE TABLE                0          2 ".
Definition b12720 : text := " 033027 Location quality class (range of radius of 66 % confidence)      CODE TABLE                 0            0   3 CODE TABLE                0          1 ".
Definition b12721 : text := " 033030 Scan line status flags for ATOVS                                 FLAG TABLE                 0            0  24 FLAG TABLE                0          8 ".
Definition b12722 : text := " 033031 Scan line quality flags for ATOVS                                FLAG TABLE                 0            0  24 FLAG TABLE                0          8 ".
Definition b12723 : text := " 033032 Channel quality flags for ATOVS                                  FLAG TABLE                 0            0  24 FLAG TABLE                0          8 ".
Definition b12724 : text := " 033033 Field of view quality flags for ATOVS                            FLAG TABLE                 0            0  24 FLAG TABLE                0          8 ".
Definition b12725 : text := " 033035 Manual/automatic quality control                                 CODE TABLE                 0            0   4 CODE TABLE                0          2 ".
Definition b12726 : text := " 033036 Nominal confidence threshold                                     %                          0            0   7 %                         0          3 ".
Definition b12727 : text := " 033037 Wind correlation error                                           FLAG TABLE                 0            0  20 FLAG TABLE                0          7 ".
Definition b12728 : text := " 033038 Quality flags for ground-based GNSS data                         FLAG TABLE                 0            0  10 FLAG TABLE                0          4 ".
Definition b12729 : text := " 033040 Confidence interval                                              %                          0            0   7 PERCENT                   0          3 ".
Definition b12730 : text := " 033041 Attribute of following value                                     CODE TABLE                 0            0   2 CODE TABLE                0          1 ".
Definition b12731 : text := " 033050 Global GTSPP quality flag                                        CODE TABLE                 0            0   4 CODE TABLE                0          2 ".
Definition b12732 : text := " 035000 FM and regional code number                                      CODE TABLE                 0            0  10 CODE TABLE                0          3 ".
Definition b12733 : text := " 035001 Time-frame for monitoring                                        CODE TABLE                 0            0   3 CODE TABLE                0          1 ".
Definition b12734 : text := " 035011 Number of reports actually received                              NUMERIC                    0            0  14 NUMERIC                   0          4 ".
Definition b12735 : text := " 035021 Bulletin being monitored (TTAAii)                                CCITTIA5                   0            0  48 CHARACTER                 0          6 ".
Definition b12736 : text := " 035022 Bulletin being monitored (YYGGgg)                                CCITTIA5                   0            0  48 CHARACTER                 0          6 ".
Definition b12737 : text := " 035023 Bulletin being monitored (CCCC)                                  CCITTIA5                   0            0  32 CHARACTER                 0          4 ".
Definition b12738 : text := " 035024 Bulletin being monitored (BBB)                                   CCITTIA5                   0            0  24 CHARACTER                 0          3 ".
Definition b12739 : text := " 035030 Discrepancies in the availability of expected data               CODE TABLE                 0            0   4 CODE TABLE                0          1 ".
Definition b12740 : text := " 035031 Qualifier on monitoring results                                  CODE TABLE                 0            0   7 CODE TABLE                0          2 ".
Definition b12741 : text := " 035032 Cause of missing data                                            CODE TABLE                 0            0   4 CODE TABLE                0          1 ".
Definition b12742 : text := " 035033 Observation and collection deficiencies                          CODE TABLE                 0            0   7 CODE TABLE                0          2 ".
Definition b12743 : text := " 035034 Statistical trends for availability of data (during the survey p CODE TABLE                 0            0   3 CODE TABLE                0          1 ".
Definition b12744 : text := " 035035 Reason for termination                                           CODE TABLE                 0            0   5 CODE TABLE                0          2 ".
Definition b12745 : text := " 000001 TABLE A:  ENTRY                                                  CCITTIA5                   0            0  24 CHARACTER                 0          3".
Definition b12746 : text := " 000002 TABLE A:  DATA CATEGORY DESCRIPTION, LINE 1                      CCITTIA5                   0            0 256 CHARACTER                 0         32".
Definition b12747 : text := " 000003 TABLE A:  DATA CATEGORY DESCRIPTION, LINE 2                      CCITTIA5                   0            0 256 CHARACTER                 0         32".
Definition b12748 : text := " 000005 BUFR/CREX EDITION NUMBER                                         CCITTIA5                   0            0  24 CHARACTER                 0          3".
Definition b12749 : text := " 000010 F DESCRIPTOR TO BE ADDED OR DEFINED                              CCITTIA5                   0            0   8 CHARACTER                 0          1".
Definition b12750 : text := " 000011 X DESCRIPTOR TO BE ADDED OR DEFINED                              CCITTIA5                   0            0  16 CHARACTER                 0          2".
Definition b12751 : text := " 000012 Y DESCRIPTOR TO BE ADDED OR DEFINED                              CCITTIA5                   0            0  24 CHARACTER                 0          3".
Definition b12752 : text := " 000013 ELEMENT NAME, LINE 1                                             CCITTIA5                   0            0 256 CHARACTER                 0         32".
Definition b12753 : text := " 000014 ELEMENT NAME, LINE 2                                             CCITTIA5                   0            0 256 CHARACTER                 0         32".
Definition b12754 : text := " 000015 UNITS NAME                                                       CCITTIA5                   0            0 192 CHARACTER                 0         24".
Definition b12755 : text := " 000016 UNITS SCALE SIGN                                                 CCITTIA5                   0            0   8 CHARACTER                 0          1".
Definition b12756 : text := " 000017 UNITS SCALE                                                      CCITTIA5                   0            0  24 CHARACTER                 0          3".
Definition b12757 : text := " 000018 UNITS REFERENCE SIGN                                             CCITTIA5                   0            0   8 CHARACTER                 0          1".
Definition b12758 : text := " 000019 UNITS REFERENCE VALUE                                            CCITTIA5                   0            0  80 CHARACTER                 0         10".
Definition b12759 : text := " 000020 ELEMENT DATA WIDTH                                               CCITTIA5                   0            0  24 CHARACTER                 0          3".
Definition b12760 : text := " 000030 DESCRIPTOR DEFINING SEQUENCE                                     CCITTIA5                   0            0  48 CHARACTER                 0          6".
Definition b12761 : text := " 001001 WMO BLOCK NUMBER                                                 NUMERIC                    0            0   7 NUMERIC                   0          2".
Definition b12762 : text := " 001002 WMO STATION NUMBER                                               NUMERIC                    0            0  10 NUMERIC                   0          3".
Definition b12763 : text := " 001003 WMO REGION NUMBER/GEOGRAPHICAL AREA                              CODE TABLE 1003            0            0   3 CODE TABLE 1003           0          1".
Definition b12764 : text := " 001004 WMO REGION SUB-AREA (SEE NOTE 9)                                 NUMERIC                    0            0   3 NUMERIC                   0          1".
Definition b12765 : text := " 001005 BUOY/PLATFORM IDENTIFIER                                         NUMERIC                    0            0  17 NUMERIC                   0          5".
Definition b12766 : text := " 001006 AIRCRAFT FLIGHT NUMBER                                           CCITTIA5                   0            0  64 CHARACTER                 0          8".
Definition b12767 : text := " 001007 SATELLITE IDENTIFIER                                             CODE TABLE 1007            0            0  10 CODE TABLE 1007           0          4".
Definition b12768 : text := " 001008 AIRCRAFT REGISTRATION NUMBER OR OTHER IDENTIFICATION             CCITTIA5                   0            0  64 CHARACTER                 0          8".
Definition b12769 : text := " 001009 TYPE OF COMMERCIAL AIRCRAFT                                      CCITTIA5                   0            0  64 CHARACTER                 0          8".
Definition b12770 : text := " 001010 STATIONARY BUOY PLATFORM IDENTIFIER; E.G. C-MAN BUOYS            CCITTIA5                   0            0  64 CHARACTER                 0          8".
Definition b12771 : text := " 001011 SHIP OR MOBILE LAND STATION IDENTIFIER                           CCITTIA5                   0            0  72 CHARACTER                 0          9".
Definition b12772 : text := " 001012 DIRECTION OF MOTION OF MOVING OBSERVING PLATFORM**               DEGREE TRUE                0            0   9 DEGREE TRUE               0          3".
Definition b12773 : text := " 001013 SPEED OF MOTION OF MOVING OBSERVING PLATFORM*                    M/S                        0            0  10 M/S                       0          3".
Definition b12774 : text := " 001014 PLATFORM DRIFT SPEED (HIGH PRECISION)                            M/S                        2            0  10 M/S                       2          4".
Definition b12775 : text := " 001015 STATION OR SITE NAME                                             CCITTIA5                   0            0 160 CHARACTER                 0         20".
Definition b12776 : text := " 001018 SHORT STATION OR SITE NAME                                       CCITTIA5                   0            0  40 CHARACTER                 0          5".
Definition b12777 : text := " 001019 LONG STATION OR SITE NAME                                        CCITTIA5                   0            0 256 CHARACTER                 0         32".
Definition b12778 : text := " 001020 WMO REGION SUB-AREA                                              NUMERIC                    0            0   4 NUMERIC                   0          2".
Definition b12779 : text := " 001021 SYNOPTIC FEATURE IDENTIFIER                                      NUMERIC                    0            0  14 NUMERIC                   0          4".
Definition b12780 : text := " 001022 NAME OF FEATURE (SEE NOTE 11)                                    CCITTIA5                   0            0 224 CHARACTER                 0         28".
Definition b12781 : text := " 001023 OBSERVATION SEQUENCE NUMBER                                      NUMERIC                    0            0   9 NUMERIC                   0          3".
Definition b12782 : text := " 001025 STORM IDENTIFIER                                                 CCITTIA5                   0            0  24 CHARACTER                 0          3".
Definition b12783 : text := " 001026 WMO STORM NAME                                                   CCITTIA5                   0            0  64 CHARACTER                 0          8".
Definition b12784 : text := " 001027 WMO LONG STORM NAME                                              CCITTIA5                   0            0  80 CHARACTER                 0         10".
Definition b12785 : text := " 001031 IDENTIFICATION OF ORIGINATING/GENERATING CENTRE (SEE NOTE 10)    CODE TABLE 1031            0            0  16 CODE TABLE 1031           0          5".
Definition b12786 : text := " 001032 GENERATING APPLICATION                                           CODE TABLE 1032            0            0   8 CODE TABLE 1032           0          3".
Definition b12787 : text := " 001033 IDENTIFICATION OF ORIGINATING/GENERATING CENTRE                  CODE TABLE 1022            0            0   8 CODE TABLE 1033           0          3".
Definition b12788 : text := " 001034 IDENTIFICATION OF ORIGINATING/GENERATING SUB-CENTRE              CODE TABLE 1034            0            0   8 CODE TABLE 1034           0          3".
Definition b12789 : text := " 001035 ORIGINATING CENTRE                                               CODE TABLE 1035            0            0  16 CODE TABLE 1035           0          5".
Definition b12790 : text := " 001036 AGENCY IN CHARGE OF OPERATING THE OBSERVING PLATFORM             CODE TABLE 1036            0            0  20 CODE TABLE 1036           0          7".
Definition b12791 : text := " 001041 ABSOLUTE PLATFORM VELOCITY - FIRST COMPONENT (SEE NOTE 6)        M/S                        5  -1073741824  31 M/S                       5         10".
Definition b12792 : text := " 001042 ABSOLUTE PLATFORM VELOCITY - SECOND COMPONENT (SEE NOTE 6)       M/S                        5  -1073741824  31 M/S                       5         10".
Definition b12793 : text := " 001043 ABSOLUTE PLATFORM VELOCITY - THIRD COMPONENT (SEE NOTE 6)        M/S                        5  -1073741824  31 M/S                       5         10".
Definition b12794 : text := " 001050 PLATFORM TRANSMITTER ID NUMBER                                   NUMERIC                    0            0  17 NUMERIC                   0          6".
Definition b12795 : text := " 001051 PLATFORM TRANSMITTER ID NUMBER                                   CCITTIA5                   0            0  96 CHARACTER                 0         12".
Definition b12796 : text := " 001060 AIRCRAFT REPORTING POINT (BEACON IDENTIFIER)                     CCITTIA5                   0            0  64 CHARACTER                 0          8".
Definition b12797 : text := " 001062 SHORT ICAO LOCATION INDICATOR                                    CCITTIA5                   0            0  32 CHARACTER                 0          4".
Definition b12798 : text := " 001063 ICAO LOCATION INDICATOR                                          CCITTIA5                   0            0  64 CHARACTER                 0          8".
Definition b12799 : text := " 001064 RUNWAY DESIGNATOR                                                CCITTIA5                   0            0  32 CHARACTER                 0          4".
Definition b12800 : text := " 001075 TIDE STATION IDENTIFICATION                                      CCITTIA5                   0            0  40 CHARACTER                 0          5".
Definition b12801 : text := " 001080 SHIP LINE NUMBER ACCORDING TO SOOP                               CCITTIA5                   0            0  32 CHARACTER                 0          4".
Definition b12802 : text := " 001081 RADIOSONDE SERIAL NUMBER                                         CCITTIA5                   0            0 160 CHARACTER                 0         20".
Definition b12803 : text := " 001082 RADIOSONDE ASCENSION NUMBER (SEE NOTE 12)                        NUMERIC                    0            0  14 NUMERIC                   0          4".
Definition b12804 : text := " 001083 RADIOSONDE RELEASE NUMBER (SEE NOTE 12)                          NUMERIC                    0            0   3 NUMERIC                   0          1".
Definition b12805 : text := " 001085 OBSERVING PLATFORM MANUFACTURER'S MODEL                          CCITTIA5                   0            0 160 CHARACTER                 0         20".
Definition b12806 : text := " 001086 OBSERVING PLATFORM MANUFACTURER'S SERIAL NUMBER                  CCITTIA5                   0            0 256 CHARACTER                 0         32".
Definition b12807 : text := " 001090  TECHNIQUE FOR MAKING UP INITIAL PERTURBATIONS                   CODE TABLE 1090            0            0   8 CODE TABLE 1090           0          3".
Definition b12808 : text := " 001091 ENSEMBLE MEMBER NUMBER                                           NUMERIC                    0            0  10 NUMERIC                   0          4".
Definition b12809 : text := " 001092 TYPE OF ENSEMBLE FORECAST                                        CODE TABLE 1092            0            0   8 CODE TABLE 1092           0          3".
Definition b12810 : text := " 001093 BALLOON LOT NUMBER                                               CCITTIA5                   0            0  96 CHARACTER                 0         12".
Definition b12811 : text := " 001094 WBAN NUMBER                                                      NUMERIC                    0            0  17 NUMERIC                   0          5".
Definition b12812 : text := " 001095 OBSERVER IDENTIFICATION                                          CCITTIA5                   0            0  32 CHARACTER                 0          4".
Definition b12813 : text := " 001196 CONSTANT LEVEL BALLOON IDENTIFIER                                CCITTIA5                   0            0  72 CHARACTER                 0          9".
Definition b12814 : text := " 001197 RTP - PLATFORM TYPE                                              CODE TABLE   1197          0            0  10 CODE TABLE                0          4".
Definition b12815 : text := " 001198 ITP - DECK ID                                                    CODE TABLE   1198          0            0  10 CODE TABLE                0          4".
Definition b12816 : text := " 001199 DUP - DUPLICATE STATUS                                           CODE TABLE   1199          0            0   4 CODE TABLE                0          2".
Definition b12817 : text := " 001201 GENERATING APPLICATION                                           CODE TABLE   1201          0            0   8 CODE TABLE                0          3".
Definition b12818 : text := " 001205 SATELLITE IDENTIFIER                                             CODE TABLE   1205          0            0  10 CODE TABLE                0          4".
Definition b12819 : text := " 001208 VELOCITY OF PLATFORM, X                                          M/S                        5  -1073741824  31 M/S                       5         10".
Definition b12820 : text := " 001209 VELOCITY OF PLATFORM, Y                                          M/S                        5  -1073741824  31 M/S                       5         10".
Definition b12821 : text := " 001210 VELOCITY OF PLATFORM, Z                                          M/S                        5  -1073741824  31 M/S                       5         10".
Definition b12822 : text := " 002001 TYPE OF STATION                                                  CODE TABLE 2001            0            0   2 CODE TABLE 2001           0          1".
Definition b12823 : text := " 002002 TYPE OF INSTRUMENTATION FOR WIND MEASUREMENT                     FLAG TABLE 2002            0            0   4 FLAG TABLE 2002           0          2".
Definition b12824 : text := " 002003 TYPE OF MEASURING EQUIPMENT USED                                 CODE TABLE 2003            0            0   4 CODE TABLE 2003           0          2".
Definition b12825 : text := " 002004 TYPE OF INSTRUMENTATION FOR EVAPORATION MEASUREMENT OR TYPE OF C CODE TABLE 2004            0            0   4 CODE TABLE 2004           0          2".
Definition b12826 : text := " 002005 PRECISION OF TEMPERATURE OBSERVATION                             K                          2            0   7 K                         2          3".
Definition b12827 : text := " 002011 RADIOSONDE TYPE                                                  CODE TABLE 2011            0            0   8 CODE TABLE 2011           0          3".
Definition b12828 : text := " 002012 RADIOSONDE COMPUTATIONAL METHOD                                  CODE TABLE 2012            0            0   4 CODE TABLE 2012           0          2".
Definition b12829 : text := " 002013 SOLAR AND INFRARED RADIATION CORRECTION                          CODE TABLE 2013            0            0   4 CODE TABLE 2013           0          2".
Definition b12830 : text := " 002014 TRACKING TECHNIQUE/STATUS OF SYSTEM USED                         CODE TABLE 2014            0            0   7 CODE TABLE 2014           0          3".
Definition b12831 : text := " 002015 RADIOSONDE COMPLETENESS                                          CODE TABLE 2015            0            0   4 CODE TABLE 2015           0          2".
Definition b12832 : text := " 002016 RADIOSONDE CONFIGURATION                                         FLAG TABLE 2016            0            0   5 FLAG TABLE 2016           0          2".
Definition b12833 : text := " 002019 SATELLITE INSTRUMENTS                                            CODE TABLE 2019            0            0  11 CODE TABLE 2019           0          4".
Definition b12834 : text := " 002020 SATELLITE CLASSIFICATION                                         CODE TABLE 2020            0            0   9 CODE TABLE 2020           0          3".
Definition b12835 : text := " 002021 SATELLITE INSTRUMENT DATA USED IN PROCESSING                     FLAG TABLE 2021            0            0   9 FLAG TABLE 2021           0          3".
Definition b12836 : text := " 002022 SATELLITE DATA-PROCESSING TECHNIQUE USED                         FLAG TABLE 2022            0            0   8 FLAG TABLE 2022           0          3".
Definition b12837 : text := " 002023 SATELLITE DERIVED WIND COMPUTATION METHOD                        CODE TABLE 2023            0            0   4 CODE TABLE 2023           0          2".
Definition b12838 : text := " 002024 INTEGRATED MEAN HUMIDITY COMPUTATIONAL METHOD                    CODE TABLE 2024            0            0   4 CODE TABLE 2024           0          2".
Definition b12839 : text := " 002025 SATELLITE CHANNEL(S) USED IN COMPUTATION                         FLAG TABLE 2025            0            0  25 FLAG TABLE 2025           0          9".
Definition b12840 : text := " 002026 CROSS TRACK RESOLUTION                                           M                          2            0  12 M                         2          4".
Definition b12841 : text := " 002027 ALONG TRACK RESOLUTION                                           M                          2            0  12 M                         2          4".
Definition b12842 : text := " 002028 SEGMENT SIZE AT NADIR IN X DIRECTION                             M                          0            0  18 M                         0          6".
Definition b12843 : text := " 002029 SEGMENT SIZE AT NADIR IN Y DIRECTION                             M                          0            0  18 M                         0          6".
Definition b12844 : text := " 002030 METHOD OF CURRENT MEASUREMENT                                    CODE TABLE 2030            0            0   3 CODE TABLE 2030           0          1".
Definition b12845 : text := " 002031 DURATION AND TIME OF CURRENT MEASUREMENT                         CODE TABLE 2031            0            0   5 CODE TABLE 2031           0          2".
Definition b12846 : text := " 002032 INDICATOR FOR DIGITIZATION                                       CODE TABLE 2032            0            0   2 CODE TABLE 2032           0          1".
Definition b12847 : text := " 002033 METHOD OF SALINITY/DEPTH MEASUREMENT                             CODE TABLE 2033            0            0   3 CODE TABLE 2033           0          1".
Definition b12848 : text := " 002034 DROGUE TYPE                                                      CODE TABLE 2034            0            0   5 CODE TABLE 2034           0          2".
Definition b12849 : text := " 002035 CABLE LENGTH                                                     M                          0            0   9 M                         0          3".
Definition b12850 : text := " 002036 BUOY TYPE                                                        CODE TABLE 2036            0            0   2 CODE TABLE 2036           0          1".
Definition b12851 : text := " 002037 METHOD OF TIDAL OBSERVATION                                      CODE TABLE 2037            0            0   3 CODE TABLE 2037           0          1".
Definition b12852 : text := " 002038 METHOD OF WATER TEMPERATURE AND/OR SALINITY MEASUREMENT          CODE TABLE 2038            0            0   4 CODE TABLE 2038           0          2".
Definition b12853 : text := " 002039 METHOD OF WET-BULB TEMPERATURE MEASUREMENT                       CODE TABLE 2039            0            0   3 CODE TABLE 2039           0          1".
Definition b12854 : text := " 002040 METHOD OF REMOVING VELOCITY AND MOTION OF PLATFORM FROM CURRENT  CODE TABLE 2040            0            0   4 CODE TABLE 2040           0          2".
Definition b12855 : text := " 002041 METHOD FOR ESTIMATING REPORTS RELATED TO SYNOPTIC FEATURES       CODE TABLE 2041            0            0   6 CODE TABLE 2041           0          2".
Definition b12856 : text := " 002044 INDICATOR FOR METHOD OF CALCULATING SPECTRAL WAVE DATA           CODE TABLE 2044            0            0   4 CODE TABLE 2044           0          2".
Definition b12857 : text := " 002045 INDICATOR FOR TYPE OF PLATFORM                                   CODE TABLE 2045            0            0   4 CODE TABLE 2045           0          2".
Definition b12858 : text := " 002046 WAVE MEASUREMENT INSTRUMENTATION                                 CODE TABLE 2046            0            0   4 CODE TABLE 2046           0          2".
Definition b12859 : text := " 002048 SATELLITE SENSOR INDICATOR                                       CODE TABLE 2048            0            0   4 CODE TABLE 2048           0          2".
Definition b12860 : text := " 002049 GEOSTATIONARY SATELLITE DATA-PROCESSING TECHNIQUE USED           FLAG TABLE 2049            0            0   8 FLAG TABLE 2049           0          3".
Definition b12861 : text := " 002050 GEOSTATIONARY SOUNDER SATELLITE CHANNELS USED                    FLAG TABLE 2050            0            0  20 FLAG TABLE 2050           0          7".
Definition b12862 : text := " 002051 INDICATOR TO SPECIFY OBSERVING METHOD FOR EXTREME TEMPERATURES   CODE TABLE 2051            0            0   4 CODE TABLE 2051           0          2".
Definition b12863 : text := " 002052 GEOSTATIONARY IMAGER SATELLITE CHANNELS USED                     FLAG TABLE 2052            0            0   6 FLAG TABLE 2052           0          2".
Definition b12864 : text := " 002053 GOES-I/M BRIGHTNESS TEMPERATURE CHARACTERISTICS                  CODE TABLE 2053            0            0   4 CODE TABLE 2053           0          2".
Definition b12865 : text := " 002054 GOES-I/M SOUNDINGS PARAMETER CHARACTERISTICS                     CODE TABLE 2054            0            0   4 CODE TABLE 2054           0          2".
Definition b12866 : text := " 002055 GEOSTATIONARY SOUNDINGS STATISTICAL PARAMETERS                   CODE TABLE 2055            0            0   4 CODE TABLE 2055           0          2".
Definition b12867 : text := " 002056 GEOSTATIONARY SOUNDINGS ACCURACY STATISTICS                      CODE TABLE 2056            0            0   4 CODE TABLE 2056           0          2".
Definition b12868 : text := " 002057 ORIGIN OF FIRST GUESS INFORMATION FOR GOES-I/M SOUNDINGS         CODE TABLE 2057            0            0   4 CODE TABLE 2057           0          2".
Definition b12869 : text := " 002058 VALID TIMES OF FIRST GUESS INFORMATION FOR GOES-I/M SOUNDINGS    CODE TABLE 2058            0            0   4 CODE TABLE 2058           0          2".
Definition b12870 : text := " 002059 ORIGIN OF ANALYSIS INFORMATION FOR GOES-I/M SOUNDINGS            CODE TABLE 2059            0            0   4 CODE TABLE 2059           0          2".
Definition b12871 : text := " 002060 ORIGIN OF SURFACE INFORMATION FOR GOES-I/M SOUNDINGS             CODE TABLE 2060            0            0   4 CODE TABLE 2060           0          2".
Definition b12872 : text := " 002061 AIRCRAFT NAVIGATIONAL SYSTEM                                     CODE TABLE 2061            0            0   3 CODE TABLE 2061           0          1".
Definition b12873 : text := " 002062 TYPE OF AIRCRAFT DATA RELAY SYSTEM                               CODE TABLE 2062            0            0   4 CODE TABLE 2062           0          2".
Definition b12874 : text := " 002063 AIRCRAFT ROLL ANGLE                                              DEGREE                     2       -18000  16 DEGREE                    2          5".
Definition b12875 : text := " 002064 AIRCRAFT ROLL ANGLE QUALITY                                      CODE TABLE 2064            0            0   2 CODE TABLE 2064           0          1".
Definition b12876 : text := " 002065 ACARS GROUND RECEIVING STATION                                   CCITTIA5                   0            0  40 CHARACTER                 0          5".
Definition b12877 : text := " 002066 RADIOSONDE GROUND RECEIVING SYSTEM                               CODE TABLE 2066            0            0   6 CODE TABLE 2066           0          2".
Definition b12878 : text := " 002067 RADIOSONDE OPERATING FREQUENCY                                   Hz                        -5            0  15 Hz                       -5          5".
Definition b12879 : text := " 002070 ORIGINAL SPECIFICATION OF LATITUDE/LONGITUDE                     CODE TABLE 2070            0            0   4 CODE TABLE 2070           0          2".
Definition b12880 : text := " 002080 BALLOON MANUFACTURER                                             CODE TABLE 2080            0            0   6 CODE TABLE 2080           0          2".
Definition b12881 : text := " 002081 TYPE OF BALLOON                                                  CODE TABLE 2081            0            0   5 CODE TABLE 2081           0          2".
Definition b12882 : text := " 002082 WEIGHT OF BALLOON                                                KG                         3            0  12 KG                        3          4".
Definition b12883 : text := " 002083 TYPE OF BALLOON SHELTER                                          CODE TABLE 2083            0            0   4 CODE TABLE 2083           0          2".
Definition b12884 : text := " 002084 TYPE OF GAS USED IN BALLOON                                      CODE TABLE 2084            0            0   4 CODE TABLE 2084           0          2".
Definition b12885 : text := " 002085 AMOUNT OF GAS USED IN BALLOON                                    KG                         3            0  13 KG                        3          4".
Definition b12886 : text := " 002086 BALLOON FLIGHT TRAIN LENGTH                                      M                          1            0  10 M                         1          4".
Definition b12887 : text := " 002091 ENTRY SENSOR 4/20 MA                                             A                          4            0  10 A                         4          3".
Definition b12888 : text := " 002095 TYPE OF PRESSURE SENSOR                                          CODE TABLE 2095            0            0   5 CODE TABLE 2095           0          2".
Definition b12889 : text := " 002096 TYPE OF TEMPERATURE SENSOR                                       CODE TABLE 2096            0            0   5 CODE TABLE 2096           0          2".
Definition b12890 : text := " 002097 TYPE OF HUMIDITY SENSOR                                          CODE TABLE 2097            0            0   5 CODE TABLE 2097           0          2".
Definition b12891 : text := " 002100 RADAR CONSTANT                                                   dB                         1            0  12 dB                        1          4".
Definition b12892 : text := " 002101 TYPE OF ANTENNA                                                  CODE TABLE 2101            0            0   4 CODE TABLE 2101           0          2".
Definition b12893 : text := " 002102 ANTENNA HEIGHT ABOVE TOWER BASE                                  M                          0            0   8 M                         0          3".
Definition b12894 : text := " 002103 RADOME                                                           FLAG TABLE 2103            0            0   2 FLAG TABLE 2103           0          1".
Definition b12895 : text := " 002104 ANTENNA POLARISATION                                             CODE TABLE 2104            0            0   4 CODE TABLE 2104           0          2".
Definition b12896 : text := " 002105 MAXIMUM ANTENNA GAIN                                             dB                         0            0   6 dB                        0          2".
Definition b12897 : text := " 002106 3-DB BEAMWIDTH                                                   DEGREE                     1            0   6 DEGREE                    1          2".
Definition b12898 : text := " 002107 SIDELOBE SUPPRESSION                                             dB                         0            0   6 dB                        0          2".
Definition b12899 : text := " 002108 CROSSPOL DISCRIMINATION (ON AXIS)                                dB                         0            0   6 dB                        0          2".
Definition b12900 : text := " 002109 ANTENNA SPEED (AZIMUTH)                                          DEGREE/S                   2            0  12 DEGREE/S                  2          4".
Definition b12901 : text := " 002110 ANTENNA SPEED (ELEVATION)                                        DEGREE/S                   2            0  12 DEGREE/S                  2          4".
Definition b12902 : text := " 002111 RADAR INCIDENCE ANGLE                                            DEGREE                     1            0  10 DEGREE                    1          4".
Definition b12903 : text := " 002112 RADAR LOOK ANGLE                                                 DEGREE                     1            0  12 DEGREE                    1          4".
Definition b12904 : text := " 002113 NUMBER OF AZIMUTH LOOKS                                          NUMERIC                    0            0   4 NUMERIC                   0          2".
Definition b12905 : text := " 002114 ANTENNA EFFECTIVE SURFACE AREA                                   M**2                       0            0  15 M**2                      0          5".
Definition b12906 : text := " 002115 TYPE OF SURFACE OBSERVING EQUIPMENT                              CODE TABLE 2115            0            0   5 CODE TABLE 2115           0          2".
Definition b12907 : text := " 002121 MEAN FREQUENCY                                                   Hz                        -8            0   7 Hz                       -8          3".
Definition b12908 : text := " 002122 FREQUENCY AGILITY RANGE                                          Hz                        -6         -128   8 Hz                       -6          3".
Definition b12909 : text := " 002123 PEAK POWER                                                       W                         -4            0   7 W                        -4          3".
Definition b12910 : text := " 002124 AVERAGE POWER                                                    W                         -1            0   7 W                        -1          3".
Definition b12911 : text := " 002125 PULSE REPETITION FREQUENCY                                       Hz                        -1            0   8 Hz                       -1          3".
Definition b12912 : text := " 002126 PULSE WIDTH                                                      S                          7            0   6 S                         7          2".
Definition b12913 : text := " 002127 RECEIVER INTERMEDIATE FREQUENCY                                  Hz                        -6            0   7 Hz                       -6          3".
Definition b12914 : text := " 002128 INTERMEDIATE FREQUENCY BANDWIDTH                                 Hz                        -5            0   6 Hz                       -5          2".
Definition b12915 : text := " 002129 MINIMUM DETECTABLE SIGNAL                                        dB                         0         -150   5 dB                        0          3".
Definition b12916 : text := " 002130 DYNAMIC RANGE                                                    dB                         0            0   7 dB                        0          3".
Definition b12917 : text := " 002131 SENSITIVITY TIME CONTROL (STC)                                   FLAG TABLE 2131            0            0   2 FLAG TABLE 2131           0          1".
Definition b12918 : text := " 002132 AZIMUTH POINTING ACCURACY                                        DEGREE                     2            0   6 DEGREE                    2          2".
Definition b12919 : text := " 002133 ELEVATION POINTING ACCURACY                                      DEGREE                     2            0   6 DEGREE                    2          2".
Definition b12920 : text := " 002134 ANTENNA BEAM AZIMUTH                                             DEGREE                     2            0  16 DEGREE                    2          5".
Definition b12921 : text := " 002135 ANTENNA ELEVATION                                                DEGREE                     2        -9000  15 DEGREE                    2          5".
Definition b12922 : text := " 002136 RANGE PROCESSED BY RANGE ATTENUATION CORRECTION                  M                         -3            0  16 M                        -3          5".
Definition b12923 : text := " 002140 SATELLITE RADAR BEAM AZIMUTH ANGLE                               DEGREE                     0            0   9 DEGREE                    0          3".
Definition b12924 : text := " 002141 MEASUREMENT TYPE                                                 CCITTIA5                   0            0  24 CHARACTER                 0          3".
Definition b12925 : text := " 002142 OZONE INSTRUMENT SERIAL NUMBER/ IDENTIFICATION                   CCITTIA5                   0            0  32 CHARACTER                 0          4".
Definition b12926 : text := " 002143 OZONE INSTRUMENT TYPE                                            CODE TABLE 2143            0            0   7 CODE TABLE 2143           0          3".
Definition b12927 : text := " 002144 LIGHT SOURCE TYPE FOR BREWER SPECTRO PHOTOMETER                  CODE TABLE 2144            0            0   4 CODE TABLE 2144           0          2".
Definition b12928 : text := " 002145 WAVE LENGTH SETTING FOR DOBSON INSTRUMENTS                       CODE TABLE 2145            0            0   4 CODE TABLE 2145           0          2".
Definition b12929 : text := " 002146 SOURCE CONDITIONS FOR DOBSON INSTRUMENTS                         CODE TABLE 2146            0            0   4 CODE TABLE 2146           0          2".
Definition b12930 : text := " 002148 DATA COLLECTION AND/OR LOCATION SYSTEM                           CODE TABLE 2148            0            0   5 CODE TABLE 2148           0          2".
Definition b12931 : text := " 002149 TYPE OF DATA BUOY                                                CODE TABLE 2149            0            0   6 CODE TABLE 2149           0          2".
Definition b12932 : text := " 002150 TOVS/ATOVS/AVHRR INSTRUMENTATION CHANNEL NUMBER                  CODE TABLE 2150            0            0   6 CODE TABLE 2150           0          2".
Definition b12933 : text := " 002151 RADIOMETER IDENTIFIER                                            CODE TABLE 2151            0            0  11 CODE TABLE 2151           0          4".
Definition b12934 : text := " 002152 SATELLITE INSTRUMENT USED IN DATA PROCESSING(6)                  FLAG TABLE 2152            0            0  31 FLAG TABLE 2152           0         10".
Definition b12935 : text := " 002153 SATELLITE CHANNEL CENTRE FREQUENCY                               Hz                        -8            0  26 Hz                       -8          8".
Definition b12936 : text := " 002154 SATELLITE CHANNEL BAND WIDTH                                     Hz                        -8            0  26 Hz                       -8          8".
Definition b12937 : text := " 002163 HEIGHT ASSIGNMENT METHOD                                         CODE TABLE 2163            0            0   4 CODE TABLE 2163           0          2".
Definition b12938 : text := " 002164 TRACER CORRELATION METHOD                                        CODE TABLE 2164            0            0   3 CODE TABLE 2164           0          1".
Definition b12939 : text := " 002166 RADIANCE TYPE                                                    CODE TABLE 2166            0            0   4 CODE TABLE 2166           0          2".
Definition b12940 : text := " 002167 RADIANCE COMPUTATIONAL METHOD                                    CODE TABLE 2167            0            0   4 CODE TABLE 2167           0          2".
Definition b12941 : text := " 002168 HYDROSTATIC PRESSURE OF LOWER END OF CABLE (THERMISTOR STRING)   PA                        -3            0  16 KPA                       0          5".
Definition b12942 : text := " 002169 ANEMOMETER TYPE                                                  CODE TABLE 2169            0            0   4 CODE TABLE 2169           0          2".
Definition b12943 : text := " 002172 PRODUCT TYPE FOR RETRIEVED ATMOSPHERIC GASES                     CODE TABLE 2172            0            0   8 CODE TABLE 2172           0          3".
Definition b12944 : text := " 002173 SQUARE OF THE OFF NADIR ANGLE (7)                                DEGREE2                    4            0  10 DEGREE2                   4          4".
Definition b12945 : text := " 002175 METHOD OF PRECIPITATION MEASUREMENT                              CODE TABLE 2175            0            0   4 CODE TABLE 2175           0          2".
Definition b12946 : text := " 002176 METHOD OF STATE OF GROUND MEASUREMENT                            CODE TABLE 2176            0            0   4 CODE TABLE 2176           0          2".
Definition b12947 : text := " 002177 METHOD OF SNOW DEPTH MEASUREMENT                                 CODE TABLE 2177            0            0   4 CODE TABLE 2177           0          2".
Definition b12948 : text := " 002178 METHOD OF LIQUID CONTENT MEASUREMENT OF PRECIPITATION            CODE TABLE 2178            0            0   4 CODE TABLE 2178           0          2".
Definition b12949 : text := " 002179 TYPE OF SKY CONDITION ALGORITHM                                  CODE TABLE 2179            0            0   4 CODE TABLE 2179           0          2".
Definition b12950 : text := " 002180 MAIN PRESENT WEATHER DETECTING SYSTEM                            CODE TABLE 2180            0            0   4 CODE TABLE 2180           0          2".
Definition b12951 : text := " 002181 SUPPLEMENTARY PRESENT WEATHER SENSOR                             FLAG TABLE 2181            0            0  21 FLAG TABLE 2181           0          7".
Definition b12952 : text := " 002182 VISIBILITY MEASUREMENT SYSTEM                                    CODE TABLE 2182            0            0   4 CODE TABLE 2182           0          2".
Definition b12953 : text := " 002183 CLOUD DETECTION SYSTEM                                           CODE TABLE 2183            0            0   4 CODE TABLE 2183           0          2".
Definition b12954 : text := " 002184 TYPE OF LIGHTNING DETECTION SENSOR                               CODE TABLE 2184            0            0   4 CODE TABLE 2184           0          2".
Definition b12955 : text := " 002185 METHOD OF EVAPORATION MEASUREMENT                                CODE TABLE 2185            0            0  4  CODE TABLE 2185           0          2".
Definition b12956 : text := " 002186 CAPABILITY TO DETECT PRECIPITATION PHENOMENA                     FLAG TABLE 2186            0            0  30 FLAG TABLE 2186           0         10".
Definition b12957 : text := " 002187 CAPABILITY TO DETECT OTHER WEATHER PHENOMENA                     FLAG TABLE 2187            0            0  18 FLAG TABLE 2187           0          6".
Definition b12958 : text := " 002188 CAPABILITY TO DETECT OBSCURATION                                 FLAG TABLE 2188            0            0  21 FLAG TABLE 2188           0          7".
Definition b12959 : text := " 002189 CAPABILITY TO DISCRIMINATE LIGHTNING STRIKES                     FLAG TABLE 2189           0            0   12 FLAG TABLE 2189           0          4".
Definition b12960 : text := " 002190 LAGRANGIAN DRIFTER SUBMERGENCE (% TIME SUBMERGED)                %                          0            0   7 %                         0          3".
Definition b12961 : text := " 002196 SATELLITE CLASSIFICATION                                         CODE TABLE   2196          0            0   9 CODE TABLE                0          3".
Definition b12962 : text := " 002197 SATELLITE CHANNEL CENTRE FREQUENCY                               Hz                        -8            0  26 Hz                       -8          8".
Definition b12963 : text := " 002198 SATELLITE CHANNEL BAND WIDTH                                     Hz                        -8            0  26 Hz                       -8          8".
Definition b12964 : text := " 002199 INTEGRATED MEAN HUMIDITY COMPUTATIONAL METHOD                    CODE TABLE   2199          0            0   4 CODE TABLE                0          2".
Definition b12965 : text := " 002221 SEGMENT SIZE AT NADIR IN X DIRECTION                             M                          0            0  18 M                         0          6".
Definition b12966 : text := " 002222 SEGMENT SIZE AT NADIR IN Y DIRECTION                             M                          0            0  18 M                         0          6".
Definition b12967 : text := " 002231 HEIGHT ASSIGNMENT METHOD                                         CODE TABLE   2231          0            0   4 CODE TABLE                0          2".
Definition b12968 : text := " 002232 TRACER CORRELATION METHOD                                        CODE TABLE   2232          0            0   3 CODE TABLE                0          1".
Definition b12969 : text := " 002251 RADIANCE COMPUTATIONAL METHOD                                    CODE TABLE   2251          0            0   4 CODE TABLE                0          2".
Definition b12970 : text := " 002252 SATELLITE INSTRUMENT DATA USED IN PROCESSING                     FLAG TABLE   2252          0            0  31 FLAG TABLE                0         10".
Definition b12971 : text := " 002253 HUMIDITY COMPUTATIONAL METHOD                                    CODE TABLE   2253          0            0   8 CODE TABLE                0          3".
Definition b12972 : text := " 002254 RADIANCE TYPE                                                    CODE TABLE   2254          0            0   4 CODE TABLE                0          2".
Definition b12973 : text := " 004001 YEAR                                                             YEAR                       0            0  12 YEAR                      0          4".
Definition b12974 : text := " 004002 MONTH                                                            MONTH                      0            0   4 MONTH                     0          2".
Definition b12975 : text := " 004003 DAY                                                              DAY                        0            0   6 DAY                       0          2".
Definition b12976 : text := " 004004 HOUR                                                             HOUR                       0            0   5 HOUR                      0          2".
Definition b12977 : text := " 004005 MINUTE                                                           MINUTE                     0            0   6 MINUTE                    0          2".
Definition b12978 : text := " 004006 SECOND                                                           SECOND                     0            0   6 SECOND                    0          2".
Definition b12979 : text := " 004007 SECONDS WITHIN A MINUTE (MICROSECOND ACCURACY)                   SECOND                     6            0  26 SECOND                    6          8".
Definition b12980 : text := " 004011 TIME INCREMENT                                                   YEAR                       0        -1024  11 YEAR                      0          4".
Definition b12981 : text := " 004012 TIME INCREMENT                                                   MONTH                      0        -1024  11 MONTH                     0          4".
Definition b12982 : text := " 004013 TIME INCREMENT                                                   DAY                        0        -1024  11 DAY                       0          4".
Definition b12983 : text := " 004014 TIME INCREMENT                                                   HOUR                       0        -1024  11 HOUR                      0          4".
Definition b12984 : text := " 004015 TIME INCREMENT                                                   MINUTE                     0        -2048  12 MINUTE                    0          4".
Definition b12985 : text := " 004016 TIME INCREMENT                                                   SECOND                     0        -4096  13 SECOND                    0          4".
Definition b12986 : text := " 004017 REFERENCE TIME PERIOD FOR ACCUMULATED OR EXTREME DATA            MINUTE                     0        -1440  12 MINUTE                    0          4".
Definition b12987 : text := " 004021 TIME PERIOD OR DISPLACEMENT                                      YEAR                       0        -1024  11 YEAR                      0          4".
Definition b12988 : text := " 004022 TIME PERIOD OR DISPLACEMENT                                      MONTH                      0        -1024  11 MONTH                     0          4".
Definition b12989 : text := " 004023 TIME PERIOD OR DISPLACEMENT                                      DAY                        0        -1024  11 DAY                       0          4".
Definition b12990 : text := " 004024 TIME PERIOD OR DISPLACEMENT                                      HOUR                       0        -2048  12 HOUR                      0          4".
Definition b12991 : text := " 004025 TIME PERIOD OR DISPLACEMENT                                      MINUTE                     0        -2048  12 MINUTE                    0          4".
Definition b12992 : text := " 004026 TIME PERIOD OR DISPLACEMENT                                      SECOND                     0        -4096  13 SECOND                    0          4".
Definition b12993 : text := " 004031 DURATION OF TIME RELATING TO FOLLOWING VALUE                     HOUR                       0            0   8 HOUR                      0          3".
Definition b12994 : text := " 004032 DURATION OF TIME RELATING TO FOLLOWING VALUE                     MINUTE                     0            0   6 MINUTE                    0          2".
Definition b12995 : text := " 004041 TIME DIFFERENCE, UTC -LMT (SEE NOTE 6)                           MINUTE                     0        -1440  12 MINUTE                    0          4".
Definition b12996 : text := " 004043 DAY OF THE YEAR                                                  DAY                        0            0   9 DAY                       0          3".
Definition b12997 : text := " 004051 PRINCIPAL TIME OF DAILY READING OF MAXIMUM TEMPERATURE           HOUR                       0            0   5 HOUR                      0          2".
Definition b12998 : text := " 004052 PRINCIPAL TIME OF DAILY READING OF MINIMUM TEMPERATURE           HOUR                       0            0   5 HOUR                      0          2".
Definition b12999 : text := " 004053 NUMBER OF DAYS WITH PRECIPITATION EQUAL TO OR MORE THAN 1 MM     NUMERIC                    0            0   6 NUMERIC                   0          2".
Definition b13000 : text := " 004059 TIMES OF OBSERVATION USED TO COMPUTE THE REPORTED MEAN VALUES    FLAG TABLE 4059            0            0   6 FLAG TABLE 4059           0          2".
Definition b13001 : text := " 004065 SHORT TIME INCREMENT                                             MINUTE                     0         -128   8 MINUTE                    0          2".
Definition b13002 : text := " 004073 SHORT TIME PERIOD OR DISPLACEMENT                                DAY                        0         -128   8 DAY                       0          2".
Definition b13003 : text := " 004074 SHORT TIME PERIOD OR DISPLACEMENT                                HOUR                       0         -128   8 HOUR                      0          2".
Definition b13004 : text := " 004075 SHORT TIME PERIOD OR DISPLACEMENT                                MINUTE                     0         -128   8 MINUTE                    0          2".
Definition b13005 : text := " 005001 LATITUDE (HIGH ACCURACY)                                         DEGREE                     5     -9000000  25 DEGREE                    5          7".
Definition b13006 : text := " 005002 LATITUDE (COARSE ACCURACY)                                       DEGREE                     2        -9000  15 DEGREE                    2          4".
Definition b13007 : text := " 005011 LATITUDE INCREMENT (HIGH ACCURACY)                               DEGREE                     5     -9000000  25 DEGREE                    5          7".
Definition b13008 : text := " 005012 LATITUDE INCREMENT (COARSE ACCURACY)                             DEGREE                     2        -9000  15 DEGREE                    2          4".
Definition b13009 : text := " 005021 BEARING OR AZIMUTH                                               DEGREE TRUE                2            0  16 DEGREE TRUE               2          5".
Definition b13010 : text := " 005022 SOLAR AZIMUTH                                                    DEGREE TRUE                2            0  16 DEGREE TRUE               2          5".
Definition b13011 : text := " 005030 DIRECTION (SPECTRAL)                                             DEGREE                     0            0  12 DEGREE                    0          4".
Definition b13012 : text := " 005031 ROW NUMBER                                                       NUMERIC                    0            0  12 NUMERIC                   0          4".
Definition b13013 : text := " 005033 PIXEL SIZE ON HORIZONTAL - 1                                     M                         -1            0  16 M                        -1          5".
Definition b13014 : text := " 005034 ALONG TRACK ROW NUMBER                                           NUMERIC                    0            0  11 NUMERIC                   0          4".
Definition b13015 : text := " 005036 SHIP TRANSECT NUMBER ACCORDING TO SOOP                           NUMERIC                    0            0   7 NUMERIC                   0          2".
Definition b13016 : text := " 005040 ORBIT NUMBER                                                     NUMERIC                    0            0  24 NUMERIC                   0          8".
Definition b13017 : text := " 005041 SCAN LINE NUMBER                                                 NUMERIC                    0            0   8 NUMERIC                   0          3".
Definition b13018 : text := " 005042 CHANNEL NUMBER                                                   NUMERIC                    0            0   6 NUMERIC                   0          2".
Definition b13019 : text := " 005043 FIELD OF VIEW NUMBER                                             NUMERIC                    0            0   8 NUMERIC                   0          3".
Definition b13020 : text := " 005044 SATELLITE CYCLE NUMBER                                           NUMERIC                    0            0  11 NUMERIC                   0          4".
Definition b13021 : text := " 005052 CHANNEL NUMBER INCREMENT                                         NUMERIC                    0            0   5 NUMERIC                   0          2".
Definition b13022 : text := " 005053 FIELD OF VIEW NUMBER INCREMENT                                   NUMERIC                    0            0   5 NUMERIC                   0          2".
Definition b13023 : text := " 006001 LONGITUDE (HIGH ACCURACY)                                        DEGREE                     5    -18000000  26 DEGREE                    5          8".
Definition b13024 : text := " 006002 LONGITUDE (COARSE ACCURACY)                                      DEGREE                     2       -18000  16 DEGREE                    2          5".
Definition b13025 : text := " 006011 LONGITUDE INCREMENT (HIGH ACCURACY)                              DEGREE                     5    -18000000  26 DEGREE                    5          8".
Definition b13026 : text := " 006012 LONGITUDE INCREMENT (COARSE ACCURACY)                            DEGREE                     2       -18000  16 DEGREE                    2          5".
Definition b13027 : text := " 006021 DISTANCE                                                         M                         -1            0  13 M                        -1          4".
Definition b13028 : text := " 006030 WAVE NUMBER (SPECTRAL)                                           RAD/M                      5            0  13 RAD/M                     5          4".
Definition b13029 : text := " 006031 COLUMN NUMBER                                                    NUMERIC                    0            0  12 NUMERIC                   0          4".
Definition b13030 : text := " 006033 PIXEL SIZE ON HORIZONTAL - 2                                     M                         -1            0  16 M                        -1          5".
Definition b13031 : text := " 006034 CROSS-TRACK CELL NUMBER                                          NUMERIC                    0            0   7 NUMERIC                   0          3".
Definition b13032 : text := " 006040 RADIUS OF CONFIDENCE                                             M                          0            0  13 M                         0          4".
Definition b13033 : text := " 007001 HEIGHT OF STATION (SEE NOTE 1)                                   M                          0         -400  15 M                         0          5".
Definition b13034 : text := " 007002 HEIGHT OR ALTITUDE                                               M                         -1          -40  16 M                        -1          5".
Definition b13035 : text := " 007003 GEOPOTENTIAL                                                     M**2/S**2                 -1         -400  17 M**2/S**2                -1          6".
Definition b13036 : text := " 007004 PRESSURE                                                         PA                        -1            0  14 PA                       -1          5".
Definition b13037 : text := " 007005 HEIGHT INCREMENT                                                 M                          0         -400  12 M                         0          4".
Definition b13038 : text := " 007006 HEIGHT ABOVE STATION                                             M                          0            0  15 M                         0          5".
Definition b13039 : text := " 007007 HEIGHT                                                           M                          0        -1000  17 M                         0          6".
Definition b13040 : text := " 007008 GEOPOTENTIAL                                                     M**2/S**2                  0       -10000  20 M**2/S**2                 0          7".
Definition b13041 : text := " 007009 GEOPOTENTIAL HEIGHT                                              GPM                        0        -1000  17 GPM                       0          5".
Definition b13042 : text := " 007010 FLIGHT LEVEL                                                     M                          0        -1024  16 FT                       -1          5".
Definition b13043 : text := " 007021 ELEVATION (SEE NOTE 2)                                           DEGREE                     2        -9000  15 DEGREE                    2          5".
Definition b13044 : text := " 007022 SOLAR ELEVATION                                                  DEGREE                     2        -9000  15 DEGREE                    2          5".
Definition b13045 : text := " 007024 SATELLITE ZENITH ANGLE                                           DEGREE                     2        -9000  15 DEGREE                    2          5".
Definition b13046 : text := " 007025 SOLAR ZENITH ANGLE                                               DEGREE                     2        -9000  15 DEGREE                    2          5".
Definition b13047 : text := " 007030 HEIGHT OF STATION GROUND ABOVE MEAN SEA LEVEL (SEE NOTE 3)       M                          1       - 4000  17 M                         1          5".
Definition b13048 : text := " 007031 HEIGHT OF BAROMETER ABOVE MEAN SEA LEVEL (SEE NOTE 4)            M                          1       - 4000  17 M                         1          5".
Definition b13049 : text := " 007032 HEIGHT OF SENSOR ABOVE LOCAL GROUND (OR DECK OF MARINE PLATFORM) M                          2            0  16 M                         2          5".
Definition b13050 : text := " 007033 HEIGHT OF SENSOR ABOVE WATER SURFACE (SEE NOTE 6)                M                          1            0  12 M                         1          4".
Definition b13051 : text := " 007061 DEPTH BELOW LAND SURFACE                                         M                          2            0  14 M                         2          5".
Definition b13052 : text := " 007062 DEPTH BELOW SEA/WATER SURFACE                                    M                          1            0  17 M                         1          6".
Definition b13053 : text := " 007064 HEIGHT ABOVE STATION (SENSOR HEIGHT ARTIFICIALLY CORRECTED) (SEE M                          0            0   4 M                         0          2".
Definition b13054 : text := " 007070 DROGUE DEPTH                                                     M                          0            0  10 M                         0          4".
Definition b13055 : text := " 008001 VERTICAL SOUNDING SIGNIFICANCE                                   FLAG TABLE 8001            0            0   7 FLAG TABLE 8001           0          3".
Definition b13056 : text := " 008002 VERTICAL SIGNIFICANCE (SURFACE OBSERVATIONS)                     CODE TABLE 8002            0            0   6 CODE TABLE 8002           0          2".
Definition b13057 : text := " 008003 VERTICAL SIGNIFICANCE (SATELLITE OBSERVATIONS)                   CODE TABLE 8003            0            0   6 CODE TABLE 8003           0          2".
Definition b13058 : text := " 008004 PHASE OF AIRCRAFT FLIGHT                                         CODE TABLE 8004            0            0   3 CODE TABLE 8004           0          1".
Definition b13059 : text := " 008005 METEOROLOGICAL ATTRIBUTE SIGNIFICANCE                            CODE TABLE 8005            0            0   4 CODE TABLE 8005           0          2".
Definition b13060 : text := " 008006 OZONE VERTICAL SOUNDING SIGNIFICANCE                             FLAG TABLE 8006            0            0   9 FLAG TABLE 8006           0          3".
Definition b13061 : text := " 008007 DIMENSIONAL SIGNIFICANCE                                         CODE TABLE 8007            0            0   4 CODE TABLE 8007           0          2".
Definition b13062 : text := " 008008 RADIATION VERTICAL SOUNDING SIGNIFICANCE                         FLAG TABLE 8008            0            0   9 FLAG TABLE 8008           0          3".
Definition b13063 : text := " 008009 DETAILED PHASE OF FLIGHT                                         CODE TABLE 8009            0            0   4 CODE TABLE 8009           0          2".
Definition b13064 : text := " 008010 SURFACE QUALIFIER (TEMPERATURE DATA)                             CODE TABLE 8010            0            0   5 CODE TABLE 8010           0          2".
Definition b13065 : text := " 008011 METEOROLOGICAL FEATURE                                           CODE TABLE 8011            0            0   6 CODE TABLE 8011           0          2".
Definition b13066 : text := " 008012 LAND/SEA QUALIFIER                                               CODE TABLE 8012            0            0   2 CODE TABLE 8012           0          1".
Definition b13067 : text := " 008013 DAY/NIGHT QUALIFIER                                              CODE TABLE 8013            0            0   2 CODE TABLE 8013           0          1".
Definition b13068 : text := " 008014 QUALIFIER FOR RUNWAY VISUAL RANGE                                CODE TABLE 8014            0            0   4 CODE TABLE 8014           0          2".
Definition b13069 : text := " 008016 CHANGE QUALIFIER OF A TREND-TYPE FORECAST OR AN AERODROME FORECA CODE TABLE 8016            0            0   3 CODE TABLE 8016           0          1".
Definition b13070 : text := " 008017 QUALIFIER OF THE TIME WHEN THE FORECAST CHANGE IS EXPECTED       CODE TABLE 8017            0            0   2 CODE TABLE 8017           0          1".
Definition b13071 : text := " 008018 SEAWINDS LAND/ICE SURFACE TYPE                                   FLAG TABLE 8018            0            0  17 FLAG TABLE 8018           0          6".
Definition b13072 : text := " 008020 TOTAL NUMBER OF MISSING ENTITIES (WITH RESPECT TO ACCUMULATION O NUMERIC                    0            0  16 NUMERIC                   0          5".
Definition b13073 : text := " 008021 TIME SIGNIFICANCE                                                CODE TABLE 8021            0            0   5 CODE TABLE 8021           0          2".
Definition b13074 : text := " 008022 TOTAL NUMBER (WITH RESPECT TO ACCUMULATION OR AVERAGE)           NUMERIC                    0            0  16 NUMERIC                   0          5".
Definition b13075 : text := " 008023 FIRST ORDER STATISTICS                                           CODE TABLE 8023            0            0   6 CODE TABLE 8023           0          2".
Definition b13076 : text := " 008024 DIFFERENCE STATISTICS                                            CODE TABLE 8024            0            0   6 CODE TABLE 8024           0          2".
Definition b13077 : text := " 008025 TIME DIFFERENCE QUALIFIER                                        CODE TABLE 8025            0            0   4 CODE TABLE 8025           0          2".
Definition b13078 : text := " 008030 MANUAL ON CODES (VOLUME I.1, SECTION C) CODE TABLE FROM WHICH DA NUMERIC                    0            0  13 NUMERIC                   0          4".
Definition b13079 : text := " 008031 DATA CATEGORY CREX TABLE A                                       NUMERIC                    0            0   8 NUMERIC                   0          3".
Definition b13080 : text := " 008033 METHOD OF DERIVATION OF PERCENTAGE CONFIDENCE                    CODE TABLE 8033            0            0   7 CODE TABLE 8033           0          3".
Definition b13081 : text := " 008035 TYPE OF MONITORING EXERCISE                                      CODE TABLE 8035            0            0   3 CODE TABLE 8035           0          1".
Definition b13082 : text := " 008036 TYPE OF CENTRE OR STATION PERFORMING MONITORING                  CODE TABLE 8036            0            0   3 CODE TABLE 8036           0          1".
Definition b13083 : text := " 008040 FLIGHT LEVEL SIGNIFICANCE                                        CODE TABLE 8040            0            0   6 CODE TABLE 8040           0          2".
Definition b13084 : text := " 008041 DATA SIGNIFICANCE                                                CODE TABLE 8041            0            0   5 CODE TABLE 8041           0          2".
Definition b13085 : text := " 008050 QUALIFIER FOR NUMBER OF MISSING VALUES IN CALCULATION OF STATIST CODE TABLE 8050            0            0   4 CODE TABLE 8050           0          2".
Definition b13086 : text := " 008051 QUALIFIER FOR NUMBER OF MISSING VALUES IN CALCULATION OF STATIST CODE TABLE 8051            0            0   3 CODE TABLE 8051           0          1".
Definition b13087 : text := " 008052 CONDITION FOR WHICH NUMBER OF DAYS OF OCCURRENCE FOLLOWS         CODE TABLE 8052            0            0   5 CODE TABLE 8052           0          2".
Definition b13088 : text := " 008053 DAY OF OCCURRENCE QUALIFIER                                      CODE TABLE 8053            0            0   2 CODE TABLE 8053           0          1".
Definition b13089 : text := " 008060 SAMPLE SCANNING MODE SIGNIFICANCE                                CODE TABLE 8060            0            0   4 CODE TABLE 8060           0          2".
Definition b13090 : text := " 008070 TOVS/ATOVS PRODUCT QUALIFIER                                     CODE TABLE 8070            0            0   4 CODE TABLE 8070           0          2".
Definition b13091 : text := " 008072 PIXEL(S) TYPE                                                    CODE TABLE 8072            0            0   3 CODE TABLE 8072           0          1".
Definition b13092 : text := " 008074 ALTIMETER ECHO TYPE                                              CODE TABLE 8074            0            0   2 CODE TABLE 8074           0          1".
Definition b13093 : text := " 008075 ASCENDING/DESCENDING ORBIT QUALIFIER                             CODE TABLE 8075            0            0   2 CODE TABLE 8075           0          1".
Definition b13094 : text := " 008076 TYPE OF BAND                                                     CODE TABLE 8076            0            0   6 CODE TABLE 8076           0          2".
Definition b13095 : text := " 008080 QUALIFIER FOR GTSSPP QUALITY FLAG                                CODE TABLE 8080            0            0   6 CODE TABLE 8080           0          2".
Definition b13096 : text := " 008081 TYPE OF EQUIPMENT                                                CODE TABLE   8081          0            0   6 CODE TABLE 8081           0          2".
Definition b13097 : text := " 008082 ARTIFICIAL CORRECTION OF SENSOR HEIGHT TO ANOTHER VALUE          CODE TABLE   8082          0            0   3 CODE TABLE 8082           0          1".
Definition b13098 : text := " 010001 HEIGHT OF LAND SURFACE                                           M                          0         -400  15 M                         0          5".
Definition b13099 : text := " 010002 HEIGHT                                                           M                         -1          -40  16 M                        -1          5".
Definition b13100 : text := " 010003 GEOPOTENTIAL                                                     M**2/S**2                 -1         -400  17 M**2/S**2                -1          6".
Definition b13101 : text := " 010004 PRESSURE                                                         PA                        -1            0  14 PA                       -1          5".
Definition b13102 : text := " 010007 HEIGHT                                                           M                          0        -1000  17 M                         0          6".
Definition b13103 : text := " 010008 GEOPOTENTIAL                                                     M**2/S**2                  0       -10000  20 M**2/S**2                 0          7".
Definition b13104 : text := " 010009 GEOPOTENTIAL HEIGHT                                              GPM                        0        -1000  17 GPM                       0          5".
Definition b13105 : text := " 010010 MINIMUM PRESSURE REDUCED TO MEAN SEA LEVEL                       PA                        -1            0  14 PA                       -1          5".
Definition b13106 : text := " 010011 MAXIMUM PRESSURE REDUCED TO MEAN SEA LEVEL                       PA                        -1            0  14 PA                       -1          5".
Definition b13107 : text := " 010031 IN DIRECTION OF THE NORTH POLE, DISTANCE FROM THE EARTH'S CENTRE M                          2  -1073741824  31 M                         2         10".
Definition b13108 : text := " 010040 NUMBER OF RETRIEVED LAYERS                                       NUMERIC                    0            0  10 NUMERIC                   0          4".
Definition b13109 : text := " 010050 STANDARD DEVIATION ALTITUDE                                      M                          2            0  16 M                         2          5".
Definition b13110 : text := " 010051 PRESSURE REDUCED TO MEAN SEA LEVEL                               PA                        -1            0  14 PA                       -1          5".
Definition b13111 : text := " 010052 ALTIMETER SETTING (QNH)                                          PA                        -1            0  14 PA                       -1          5".
Definition b13112 : text := " 010060 PRESSURE CHANGE                                                  PA                        -1        -1024  11 PA                       -1          4".
Definition b13113 : text := " 010061 3-HOUR PRESSURE CHANGE                                           PA                        -1         -500  10 PA                       -1          4".
Definition b13114 : text := " 010062 24-HOUR PRESSURE CHANGE                                          PA                        -1        -1000  11 PA                       -1          4".
Definition b13115 : text := " 010063 CHARACTERISTIC OF PRESSURE TENDENCY                              CODE TABLE 10063           0            0   4 CODE TABLE 10063          0          2".
Definition b13116 : text := " 010070 INDICATED AIRCRAFT ALTITUDE                                      M                          0         -400  16 M                         0          5".
Definition b13117 : text := " 010197 ANEMOMETER HEIGHT                                                M                          0            0   9 M                         0          3".
Definition b13118 : text := " 011001 WIND DIRECTION                                                   DEGREE TRUE                0            0   9 DEGREE TRUE               0          3".
Definition b13119 : text := " 011002 WIND SPEED                                                       M/S                        1            0  12 M/S                       1          4".
Definition b13120 : text := " 011003 U-COMPONENT                                                      M/S                        1        -4096  13 M/S                       1          4".
Definition b13121 : text := " 011004 V-COMPONENT                                                      M/S                        1        -4096  13 M/S                       1          4".
Definition b13122 : text := " 011005 W-COMPONENT                                                      PA/S                       1         -512  10 PA/S                      1          4".
Definition b13123 : text := " 011006 W-COMPONENT                                                      M/S                        2        -4096  13 M/S                       2          4".
Definition b13124 : text := " 011010 WIND DIRECTION ASSOCIATED WITH WIND SPEED WHICH FOLLOWS          DEGREE TRUE                0            0   9 DEGREE TRUE               0          3".
Definition b13125 : text := " 011011 WIND DIRECTION AT 10 M                                           DEGREE TRUE                0            0   9 DEGREE TRUE               0          3".
Definition b13126 : text := " 011012 WIND SPEED AT 10 M                                               M/S                        1            0  12 M/S                       1          4".
Definition b13127 : text := " 011013 WIND DIRECTION AT 5 M                                            DEGREE TRUE                0            0   9 DEGREE TRUE               0          3".
Definition b13128 : text := " 011014 WIND SPEED AT 5 M                                                M/S                        1            0  12 M/S                       1          4".
Definition b13129 : text := " 011016 EXTREME COUNTERCLOCKWISE WIND DIRECTION OF A VARIABLE WIND       DEGREE TRUE                0            0   9 DEGREE TRUE               0          3".
Definition b13130 : text := " 011017 EXTREME CLOCKWISE WIND DIRECTION OF A VARIABLE WIND              DEGREE TRUE                0            0   9 DEGREE TRUE               0          3".
Definition b13131 : text := " 011019 STEADINESS OF WIND (6)                                           %                          0            0   7 %                         0          3".
Definition b13132 : text := " 011021 RELATIVE VORTICITY                                               1/S                        9       -65536  17 1/S                       9          6".
Definition b13133 : text := " 011022 DIVERGENCE                                                       1/S                        9       -65536  17 1/S                       9          6".
Definition b13134 : text := " 011023 VELOCITY POTENTIAL                                               M**2/S                    -2       -65536  17 M**2/S                   -2          6".
Definition b13135 : text := " 011031 DEGREE OF TURBULENCE                                             CODE TABLE 11031           0            0   4 CODE TABLE 11031          0          2".
Definition b13136 : text := " 011032 HEIGHT OF BASE OF TURBULENCE                                     M                         -1          -40  16 M                        -1          5".
Definition b13137 : text := " 011033 HEIGHT OF TOP OF TURBULENCE                                      M                         -1          -40  16 M                        -1          5".
Definition b13138 : text := " 011034 VERTICAL GUST VELOCITY                                           M/S                        1        -1024  11 M/S                       1          4".
Definition b13139 : text := " 011035 VERTICAL GUST ACCELERATION                                       M/S**2                     2        -8192  14 M/S**2                    2          5".
Definition b13140 : text := " 011036 MAXIMUM DERIVED EQUIVALENT VERTICAL GUST SPEED                   M/S                        1            0  10 M/S                       1          4".
Definition b13141 : text := " 011037 TURBULENCE INDEX                                                 CODE TABLE 11037           0            0   6 CODE TABLE 11037          0          2".
Definition b13142 : text := " 011038 TIME OF OCCURRENCE OF PEAK EDDY DISSIPATION RATE                 CODE TABLE 11038           0            0   5 CODE TABLE 11038          0          2".
Definition b13143 : text := " 011039 EXTENDED TIME OF OCCURRENCE OF PEAK  EDDY DISSIPATION RATE       CODE TABLE 11039           0            0   6 CODE TABLE 11039          0          2".
Definition b13144 : text := " 011040 MAXIMUM WIND SPEED (MEAN WIND)                                   M/S                        1            0  12 M/S                       1          4".
Definition b13145 : text := " 011041 MAXIMUM WIND GUST SPEED                                          M/S                        1            0  12 M/S                       1          4".
Definition b13146 : text := " 011042 MAXIMUM WIND SPEED (10-MIN MEAN WIND)                            M/S                        1            0  12 M/S                       1          4".
Definition b13147 : text := " 011043 MAXIMUM WIND GUST DIRECTION                                      DEGREE TRUE                0            0   9 DEGREE TRUE               0          3".
Definition b13148 : text := " 011044 MEAN WIND DIRECTION FOR SURFACE - 1500 M (5000 FEET)             DEGREE TRUE                0            0   9 DEGREE TRUE               0          3".
Definition b13149 : text := " 011045 MEAN WIND SPEED FOR SURFACE - 1500 M (5000 FEET)                 M/S                        1            0  12 M/S                       1          4".
Definition b13150 : text := " 011046 MAXIMUM INSTANTANEOUS WIND SPEED                                 M/S                        1            0  12 M/S                       1          4".
Definition b13151 : text := " 011047 MAXIMUM INSTANTANEOUS WIND SPEED OVER 10 MINUTES                 M/S                        1            0  12 M/S                       1          4".
Definition b13152 : text := " 011049 STANDARD DEVIATION OF WIND DIRECTION                             DEGREE TRUE                0            0   9 DEGREE TRUE               0          3".
Definition b13153 : text := " 011050 STANDARD DEVIATION OF HORIZONTAL WIND SPEED                      M/S                        1            0  12 M/S                       1          4".
Definition b13154 : text := " 011051 STANDARD DEVIATION OF VERTICAL WIND SPEED                        M/S                        1            0   8 M/S                       1          3".
Definition b13155 : text := " 011052 FORMAL UNCERTAINTY IN WIND SPEED                                 M/S                        2            0  13 M/S                       2          5".
Definition b13156 : text := " 011053 FORMAL UNCERTAINTY IN WIND DIRECTION                             DEGREE TRUE                2            0  15 DEGREE TRUE               2          5".
Definition b13157 : text := " 011061 ABSOLUTE WIND SHEAR IN 1 KM LAYER BELOW                          M/S                        1            0  12 M/S                       1          4".
Definition b13158 : text := " 011062 ABSOLUTE WIND SHEAR IN 1 KM LAYER ABOVE                          M/S                        1            0  12 M/S                       1          4".
Definition b13159 : text := " 011070 DESIGNATOR OF THE RUNWAY AFFECTED BY WIND SHEAR (INCLUDING ALL)  CCITTIA5                   0            0  32 CHARACTER                 0          4".
Definition b13160 : text := " 011071 TURBULENT VERTICAL MOMENTUM FLUX                                 M**2/S**2                  3         -128  14 M**2/S**2                 3          5".
Definition b13161 : text := " 011072 TURBULENT VERTICAL BUOYANCY FLUX                                 KM/S                       3         -128  11 KM/S                      3          4".
Definition b13162 : text := " 011073 TURBULENT KINETIC ENERGY                                         M**2/S**2                  2        -1024  13 M**2/S**2                 2          4".
Definition b13163 : text := " 011074 DISSIPATION ENERGY                                               M**2/S**2                  2        -1024  10 M**2/S**2                 2          4".
Definition b13164 : text := " 011075 MEAN TURBULENCE INTENSITY (EDDY DISSIPATION RATE)                M**(2/3)/S                 2            0   8 M**(2/3)/S                2          3".
Definition b13165 : text := " 011076 PEAK TURBULENCE INTENSITY (EDDY DISSIPATION RATE)                M**(2/3)/S                 2            0   8 M**(2/3)/S                2          3".
Definition b13166 : text := " 011077 REPORTING INTERVAL OR AVERAGING TIME FOR EDDY DISSIPATION RATE   S                          0            0  12 S                         0          4".
Definition b13167 : text := " 011081 MODEL WIND DIRECTION AT 10M                                      DEGREE TRUE                2            0  16 DEGREE TRUE               2          5".
Definition b13168 : text := " 011082 MODEL WIND SPEED AT 10M                                          M/S                        2            0  14 M/S                       2          4".
Definition b13169 : text := " 011230 MAXIMUM MEAN WIND SPEED                                          M/S                        1        -4096  13 M/S                       1          4".
Definition b13170 : text := " 011231 MEAN WIND SPEED                                                  M/S                        1        -4096  13 M/S                       1          4".
Definition b13171 : text := " 011232 MINIMUM MEAN WIND SPEED                                          M/S                        1        -4096  13 M/S                       1          4".
Definition b13172 : text := " 011233 HIGHEST GUST DURING THE 10 MINUTE PERIOD PRECEDING OBSERVATION   M/S                        1        -4096  13 M/S                       1          4".
Definition b13173 : text := " 012001 TEMPERATURE/DRY-BULB TEMPERATURE                                 K                          1            0  12 C                         1          3".
Definition b13174 : text := " 012002 WET-BULB TEMPERATURE                                             K                          1            0  12 C                         1          3".
Definition b13175 : text := " 012003 DEW-POINT TEMPERATURE                                            K                          1            0  12 C                         1          3".
Definition b13176 : text := " 012004 DRY-BULB TEMPERATURE AT 2 M                                      K                          1            0  12 C                         1          3".
Definition b13177 : text := " 012005 WET-BULB TEMPERATURE AT 2 M                                      K                          1            0  12 C                         1          3".
Definition b13178 : text := " 012006 DEW-POINT TEMPERATURE AT 2 M                                     K                          1            0  12 C                         1          3".
Definition b13179 : text := " 012007 VIRTUAL TEMPERATURE                                              K                          1            0  12 C                         1          3".
Definition b13180 : text := " 012011 MAXIMUM TEMPERATURE, AT HEIGHT AND OVER PERIOD SPECIFIED         K                          1            0  12 C                         1          3".
Definition b13181 : text := " 012012 MINIMUM TEMPERATURE, AT HEIGHT AND OVER PERIOD SPECIFIED         K                          1            0  12 C                         1          3".
Definition b13182 : text := " 012013 GROUND MINIMUM TEMPERATURE, PAST 12 HOURS                        K                          1            0  12 C                         1          3".
Definition b13183 : text := " 012014 MAXIMUM TEMPERATURE AT 2 M, PAST 12 HOURS                        K                          1            0  12 C                         1          3".
Definition b13184 : text := " 012015 MINIMUM TEMPERATURE AT 2 M, PAST 12 HOURS                        K                          1            0  12 C                         1          3".
Definition b13185 : text := " 012016 MAXIMUM TEMPERATURE AT 2 M, PAST 24 HOURS                        K                          1            0  12 C                         1          3".
Definition b13186 : text := " 012017 MINIMUM TEMPERATURE AT 2 M, PAST 24 HOURS                        K                          1            0  12 C                         1          3".
Definition b13187 : text := " 012021 MAXIMUM TEMPERATURE AT 2M                                        K                          2            0  16 C                         2          4".
Definition b13188 : text := " 012022 MINIMUM TEMPERATURE AT 2M                                        K                          2            0  16 C                         2          4".
Definition b13189 : text := " 012030 SOIL TEMPERATURE                                                 K                          1            0  12 C                         1          3".
Definition b13190 : text := " 012051 STANDARD DEVIATION TEMPERATURE                                   K                          1            0  10 C                         1          3".
Definition b13191 : text := " 012052 HIGHEST DAILY MEAN TEMPERATURE                                   K                          1            0  12 C                         1          3".
Definition b13192 : text := " 012053 LOWEST DAILY MEAN TEMPERATURE                                    K                          1            0  12 C                         1          3".
Definition b13193 : text := " 012061 SKIN TEMPERATURE                                                 K                          1            0  12 C                         1          3".
Definition b13194 : text := " 012062 EQUIVALENT BLACK BODY TEMPERATURE                                K                          1            0  12 C                         1          3".
Definition b13195 : text := " 012063 BRIGHTNESS TEMPERATURE                                           K                          1            0  12 C                         1          3".
Definition b13196 : text := " 012064 INSTRUMENT TEMPERATURE                                           K                          1            0  12 K                         1          4".
Definition b13197 : text := " 012065 STANDARD DEVIATION BRIGHTNESS TEMPERATURE                        K                          1            0  12 K                         1          4".
Definition b13198 : text := " 012070 WARM LOAD TEMPERATURE                                            K                          2            0  16 K                         2          5".
Definition b13199 : text := " 012071 COLDEST CLUSTER TEMPERATURE                                      K                          1            0  12 K                         1          4".
Definition b13200 : text := " 012072 RADIANCE                                                         WM**(-2)SR**(-1)           6            0  31 WM**(-2)SR**(-1)          6          9".
Definition b13201 : text := " 012073 TEMPERATURE                                                      K                          2            0  16 C                         2          4".
Definition b13202 : text := " 012075 SPECTRAL RADIANCE                                                WM**(-3)SR**(-1)          -3            0  16 WM**(-3)SR**(-1)         -3          5".
Definition b13203 : text := " 012076 RADIANCE                                                         WM**(-2)SR**(-1)           3            0  16 WM**(-2)SR**(-1)          3          5".
Definition b13204 : text := " 012101 TEMPERATURE/DRY-BULB TEMPERATURE                                 K                          2            0  16 C                         2          4".
Definition b13205 : text := " 012102 WET-BULB TEMPERATURE                                             K                          2            0  16 C                         2          4".
Definition b13206 : text := " 012103 DEW-POINT TEMPERATURE                                            K                          2            0  16 C                         2          4".
Definition b13207 : text := " 012104 DRY-BULB TEMPERATURE AT 2M                                       K                          2            0  16 C                         2          4".
Definition b13208 : text := " 012105 WEB-BULB TEMPERATURE AT 2M                                       K                          2            0  16 C                         2          4".
Definition b13209 : text := " 012106 DEW-POINT TEMPERATURE AT 2M                                      K                          2            0  16 C                         2          4".
Definition b13210 : text := " 012107 VIRTUAL TEMPERATURE                                              K                          2            0  16 C                         2          4".
Definition b13211 : text := " 012111 MAXIMUM TEMPERATURE, AT HEIGHT AND OVER PERIOD SPECIFIED         K                          2            0  16 C                         2          4".
Definition b13212 : text := " 012112 MINIMUM TEMPERATURE, AT HEIGHT AND OVER PERIOD SPECIFIED         K                          2            0  16 C                         2          4".
Definition b13213 : text := " 012113 GROUND MINIMUM TEMPERATURE, PAST 12 HOURS                        K                          2            0  16 C                         2          4".
Definition b13214 : text := " 012114 MAXIMUM TEMPERATURE AT 2M, PAST 12 HOURS                         K                          2            0  16 C                         2          4".
Definition b13215 : text := " 012115 MINIMUM TEMPERATURE AT 2M, PAST 12 HOURS                         K                          2            0  16 C                         2          4".
Definition b13216 : text := " 012116 MAXIMUM TEMPERATURE AT 2M, PAST 24 HOURS                         K                          2            0  16 C                         2          4".
Definition b13217 : text := " 012117 MINIMUM TEMPERATURE AT 2M, PAST 24 HOURS                         K                          2            0  16 C                         2          4".
Definition b13218 : text := " 012118 MAXIMUM TEMPERATURE AT HEIGHT SPECIFIED, PAST 24 HOURS           K                          2            0  16 C                         2          4".
Definition b13219 : text := " 012119 MINIMUM  TEMPERATURE AT HEIGHT SPECIFIED, PAST 24 HOURS          K                          2            0  16 C                         2          4".
Definition b13220 : text := " 012130 SOIL TEMPERATURE                                                 K                          2            0  16 C                         2          4".
Definition b13221 : text := " 012151 STANDARD DEVIATION OF DAILY MEAN TEMPERATURE                     K                          2            0  12 C                         2          4".
Definition b13222 : text := " 012152 HIGHEST DAILY MEAN TEMPERATURE                                   K                          2            0  16 C                         2          4".
Definition b13223 : text := " 012153 LOWEST DAILY MEAN TEMPERATURE                                    K                          2            0  16 C                         2          4".
Definition b13224 : text := " 012161 SKIN TEMPERATURE                                                 K                          2            0  16 C                         2          4".
Definition b13225 : text := " 012162 EQUIVALENT BLACK BODY TEMPERATURE                                K                          2            0  16 C                         2          4".
Definition b13226 : text := " 012163 BRIGHTNESS TEMPERATURE                                           K                          2            0  16 C                         2          4".
Definition b13227 : text := " 012164 INSTRUMENT TEMPERATURE                                           K                          2            0  16 K                         2          5".
Definition b13228 : text := " 012171 COLDEST CLUSTER TEMPERATURE                                      K                          2            0  16 K                         2          5".
Definition b13229 : text := " 012193 COLDEST CLUSTER TEMPERATURE                                      K                          1            0  12 K                         1          4".
Definition b13230 : text := " 012194 RADIANCE                                                         W/M**2*STER*M**(-1)        6            0  31 W/M**2*STER*M**(-1)       6         10".
Definition b13231 : text := " 012195 SPECTRAL RADIANCE                                                W/M**2*STER*M**(-1)       10            0  31 W/M**2*STER*M**(-1)      10         10".
Definition b13232 : text := " 012196 RADIANCE                                                         W/M**2*STER                3            0  16 W/M**2*STER               3          4".
Definition b13233 : text := " 013001 SPECIFIC HUMIDITY                                                KG/KG                      5            0  14 KG/KG                     5          5".
Definition b13234 : text := " 013002 MIXING RATIO                                                     KG/KG                      5            0  14 KG/KG                     5          5".
Definition b13235 : text := " 013003 RELATIVE HUMIDITY                                                %                          0            0   7 %                         0          3".
Definition b13236 : text := " 013004 VAPOUR PRESSURE                                                  PA                        -1            0  10 PA                       -1          4".
Definition b13237 : text := " 013005 VAPOUR DENSITY                                                   KG/M**3                    3            0   7 KG/M**3                   3          3".
Definition b13238 : text := " 013006 MIXING HEIGHTS                                                   M                         -1          -40  16 M                        -1          5".
Definition b13239 : text := " 013007 MINIMUM RELATIVE HUMIDITY                                        %                          0            0   7 %                         0          3".
Definition b13240 : text := " 013008 MAXIMUM RELATIVE HUMIDITY                                        %                          0            0   7 %                         0          3".
Definition b13241 : text := " 013009 RELATIVE HUMIDITY                                                %                          1        -1000  12 %                         1          4".
Definition b13242 : text := " 013011 TOTAL PRECIPITATION/TOTAL WATER EQUIVALENT                       KG/M**2                    1           -1  14 KG/M**2                   1          5".
Definition b13243 : text := " 013012 DEPTH OF FRESH SNOW                                              M                          2           -2  12 M                         2          4".
Definition b13244 : text := " 013013 TOTAL SNOW DEPTH                                                 M                          2           -2  16 M                         2          5".
Definition b13245 : text := " 013014 RAINFALL/WATER EQUIVALENT OF SNOW (AVERAGED RATE)                KG/(M**2)S                 4            0  12 KG/(M**2)S                4          4".
Definition b13246 : text := " 013015 SNOWFALL  (AVERAGED RATE)                                        M/S                        7            0  12 M/S                       7          4".
Definition b13247 : text := " 013016 PRECIPITABLE WATER                                               KG/M**2                    0            0   7 KG/M**2                   0          3".
Definition b13248 : text := " 013019 TOTAL PRECIPITATION PAST 1 HOUR                                  KG/M**2                    1           -1  14 KG/M**2                   1          4".
Definition b13249 : text := " 013020 TOTAL PRECIPITATION PAST 3 HOURS                                 KG/M**2                    1           -1  14 KG/M**2                   1          5".
Definition b13250 : text := " 013021 TOTAL PRECIPITATION PAST 6 HOURS                                 KG/M**2                    1           -1  14 KG/M**2                   1          5".
Definition b13251 : text := " 013022 TOTAL PRECIPITATION PAST 12 HOURS                                KG/M**2                    1           -1  14 KG/M**2                   1          5".
Definition b13252 : text := " 013023 TOTAL PRECIPITATION PAST 24 HOURS                                KG/M**2                    1           -1  14 KG/M**2                   1          5".
Definition b13253 : text := " 013031 EVAPOTRANSPIRATION                                               KG/M**2                    0            0   7 KG/M**2                   0          3".
Definition b13254 : text := " 013032 EVAPORATION/EVAPOTRANSPIRATION                                   KG/M**2                    1            0   8 KG/M**2                   1          3".
Definition b13255 : text := " 013033 EVAPORATION/EVAPOTRANSPIRATION                                   KG/M**2                    1            0  10 KG/M**2                   1          4".
Definition b13256 : text := " 013038 SUPERADIABATIC INDICATOR                                         CODE TABLE 13038           0            0   2 CODE TABLE 13038          0          1".
Definition b13257 : text := " 013039 TERRAIN TYPE (ICE/SNOW)                                          CODE TABLE 13039           0            0   3 CODE TABLE 13039          0          1".
Definition b13258 : text := " 013040 SURFACE FLAG                                                     CODE TABLE 13040           0            0   4 CODE TABLE 13040          0          2".
Definition b13259 : text := " 013041 PASQUILL-GIFFORD STABILITY CATEGORY                              CODE TABLE 13041           0            0   4 CODE TABLE 13041          0          2".
Definition b13260 : text := " 013042 PARCEL LIFTED INDEX (TO 500 HPA)                                 K                          0          -20   6 K                         0          2".
Definition b13261 : text := " 013043 BEST LIFTED INDEX (TO 500 HPA)                                   K                          0          -20   6 K                         0          2".
Definition b13262 : text := " 013051 FREQUENCY GROUP, PRECIPITATION                                   CODE TABLE 13051           0            0   4 CODE TABLE 13051          0          2".
Definition b13263 : text := " 013052 HIGHEST DAILY AMOUNT OF PRECIPITATION                            KG/M**2                    1           -1  14 KG/M**2                   1          5".
Definition b13264 : text := " 013055 INTENSITY OF PRECIPITATION                                       KG/(M**2)S                 4            0   8 MM H-1                    1          4".
Definition b13265 : text := " 013058 SIZE OF PRECIPITATING ELEMENT                                    M                          4            0   7 MM                        1          3".
Definition b13266 : text := " 013059 NUMBER OF FLASHES (THUNDERSTORM)                                 NUMERIC                    0            0   7 NUMERIC                   0          3".
Definition b13267 : text := " 013060 TOTAL ACCUMULATED PRECIPITATION                                  KG/M**2                    1           -1  17 KG/M**2                   1          5".
Definition b13268 : text := " 013071 UPSTREAM WATER LEVEL                                             M                          2            0  14 M                         2          4".
Definition b13269 : text := " 013072 DOWNSTREAM WATER LEVEL                                           M                          2            0  14 M                         2          4".
Definition b13270 : text := " 013073 MAXIMUM WATER LEVEL                                              M                          2            0  14 M                         2          4".
Definition b13271 : text := " 013080 WATER PH                                                         pH                         1            0  10 pH                        1          3".
Definition b13272 : text := " 013081 WATER CONDUCTIVITY                                               SIEMENS/M                  3            0  14 SIEMENS/M                 3          4".
Definition b13273 : text := " 013082 WATER TEMPERATURE                                                K                          1            0  12 K                         1          4".
Definition b13274 : text := " 013083 DISSOLVED OXYGEN                                                 KG/M**3                    6            0  15 KG/M**3                   6          5".
Definition b13275 : text := " 013084 TURBIDITY                                                        LUMEN                      0            0  14 LUMEN                     0          4".
Definition b13276 : text := " 013085 OXYDATION REDUCTION POTENTIAL (ORP)                              V                          3            0  14 V                         3          4".
Definition b13277 : text := " 013090 RADIOMETER WATER VAPOUR CONTENT                                  KGM-2                      1            0  10 KGM-2                     1          4".
Definition b13278 : text := " 013091 RADIOMETER LIQUID CONTENT                                        KGM-2                      2            0   8 KGM-2                     2          3".
Definition b13279 : text := " 014001 LONG-WAVE RADIATION, INTEGRATED OVER 24 HOURS                    J/M**2                    -3        -2048  12 J/M**2                   -3          4".
Definition b13280 : text := " 014002 LONG-WAVE RADIATION, INTEGRATED OVER PERIOD SPECIFIED            J/M**2                    -3        -2048  12 J/M**2                   -3          4".
Definition b13281 : text := " 014003 SHORT-WAVE RADIATION, INTEGRATED OVER 24 HOURS                   J/M**2                    -3        -2048  12 J/M**2                   -3          4".
Definition b13282 : text := " 014004 SHORT-WAVE RADIATION, INTEGRATED OVER PERIOD SPECIFIED           J/M**2                    -3        -2048  12 J/M**2                   -3          4".
Definition b13283 : text := " 014011 NET LONG-WAVE RADIATION, INTEGRATED OVER 24 HOURS                J/M**2                    -3        -2048  12 J/M**2                   -3          4".
Definition b13284 : text := " 014012 NET LONG-WAVE RADIATION, INTEGRATED OVER PERIOD SPECIFIED        J/M**2                    -3        -2048  12 J/M**2                   -3          4".
Definition b13285 : text := " 014013 NET SHORT-WAVE RADIATION, INTEGRATED OVER 24 HOURS               J/M**2                    -3        -2048  12 J/M**2                   -3          4".
Definition b13286 : text := " 014014 NET SHORT-WAVE RADIATION, INTEGRATED OVER PERIOD SPECIFIED       J/M**2                    -3        -2048  12 J/M**2                   -3          4".
Definition b13287 : text := " 014015 NET RADIATION, INTEGRATED OVER 24 HOURS                          J/M**2                    -4       -16384  15 J/M**2                   -4          5".
Definition b13288 : text := " 014016 NET RADIATION, INTEGRATED OVER PERIOD SPECIFIED                  J/M**2                    -4       -16384  15 J/M**2                   -4          5".
Definition b13289 : text := " 014017 INSTANTANEOUS LONG-WAVE RADIATION                                W/M**2                    -3        -2048  12 W/M**2                   -3          4".
Definition b13290 : text := " 014018 INSTANTANEOUS SHORT-WAVE RADIATION                               W/M**2                    -3        -2048  12 W/M**2                   -3          4".
Definition b13291 : text := " 014019 SURFACE ALBEDO                                                   %                          0            0   7 %                         0          3".
Definition b13292 : text := " 014020 GLOBAL SOLAR RADIATION, INTEGRATED OVER 24 HOURS                 J/M**2                    -4            0  15 J/M**2                   -4          5".
Definition b13293 : text := " 014021 GLOBAL SOLAR RADIATION, INTEGRATED OVER PERIOD SPECIFIED         J/M**2                    -4            0  15 J/M**2                   -4          5".
Definition b13294 : text := " 014022 DIFFUSE SOLAR RADIATION, INTEGRATED OVER 24 HOURS                J/M**2                    -4            0  15 J/M**2                   -4          5".
Definition b13295 : text := " 014023 DIFFUSE SOLAR RADIATION, INTEGRATED OVER PERIOD SPECIFIED        J/M**2                    -4            0  15 J/M**2                   -4          5".
Definition b13296 : text := " 014024 DIRECT SOLAR RADIATION, INTEGRATED OVER 24 HOURS                 J/M**2                    -4            0  15 J/M**2                   -4          5".
Definition b13297 : text := " 014025 DIRECT SOLAR RADIATION, INTEGRATED OVER PERIOD SPECIFIED         J/M**2                    -4            0  15 J/M**2                   -4          5".
Definition b13298 : text := " 014026 ALBEDO AT THE TOP OF CLOUDS                                      %                          0            0   7 %                         0          3".
Definition b13299 : text := " 014027 ALBEDO                                                           %                          0            0   7 %                         0          3".
Definition b13300 : text := " 014028 GLOBAL SOLAR RADIATION (HIGH ACCURACY), INTEGRATED OVER PERIOD S J/M**2                    -2            0  16 J/M**2                   -2          5".
Definition b13301 : text := " 014029 DIFFUSE SOLAR RADIATION (HIGH ACCURACY), INTEGRATED OVER PERIOD  J/M**2                    -2            0  16 J/M**2                   -2          5".
Definition b13302 : text := " 014030 DIRECT SOLAR RADIATION (HIGH ACCURACY), INTEGRATED OVER PERIOD S J/M**2                    -2            0  16 J/M**2                   -2          5".
Definition b13303 : text := " 014031 TOTAL SUNSHINE                                                   MINUTE                     0            0  11 MINUTE                    0          4".
Definition b13304 : text := " 014032 TOTAL SUNSHINE                                                   HOUR                       0            0  10 HOUR                      0          4".
Definition b13305 : text := " 014033 TOTAL SUNSHINE                                                   %                          0            0   9 %                         0          3".
Definition b13306 : text := " 014034 SUNSHINE OVER PERIOD SPECIFIED                                   MINUTE                     0            0  11 MINUTE                    0          4".
Definition b13307 : text := " 014042 BI-DIRECTIONAL REFLECTANCE                                       %                          0            0   7 %                         0          3".
Definition b13308 : text := " 014045 CHANNEL RADIANCE                                                 (W/M**2)*(1/SR)*CM         0            0  11 WM-2SR-1CM-1              0          4".
Definition b13309 : text := " 014050 EMISSIVITY (SEE NOTE 5)                                          %                          1            0  10 %                         1          4".
Definition b13310 : text := " 014051 DIRECT SOLAR RADIATION INTEGRATED OVER LAST HOUR                 J/M**2                    -3            0  14 JM-2                     -3          4".
Definition b13311 : text := " 015001 TOTAL OZONE                                                      DU                         0            0  10 DU                        0          4".
Definition b13312 : text := " 015002 AIR MASS (SLANT PATH AT 22 KM)                                   NUMERIC                    2            0  10 NUMERIC                   2          3".
Definition b13313 : text := " 015003 MEASURED OZONE PARTIAL PRESSURE (SOUNDING)                       PA                         4            0   9 NBAR                      0          3".
Definition b13314 : text := " 015004 OZONE SOUNDING CORRECTION FACTOR                                 NUMERIC                    3            0  11 NUMERIC                   3          4".
Definition b13315 : text := " 015005 OZONE P                                                          DU                         0            0  10 DU                        0          3".
Definition b13316 : text := " 015011 LOG 10 OF INTEGRATED ELECTRON DENSITY                            LOG (1/M2)                 3        14000  13 LOG (M-2)                 3          4".
Definition b13317 : text := " 015015 MAXIMUM IMAGE SPECTRAL COMPONENT BEFORE NORMALIZATION            NUMERIC                    0            0  31 NUMERIC                   0         10".
Definition b13318 : text := " 015020 INTEGRATED 03 DENSITY                                            KG/M**2                    8            0  21 KG/M**2                   8          7".
Definition b13319 : text := " 015031 ATMOSPHERIC PATH DELAY IN SATELLITE SIGNAL                       M                          4        10000  15 M                         4          5".
Definition b13320 : text := " 015032 ESTIMATED ERROR IN ATMOSPHERIC PATH DELAY                        M                          4            0  10 M                         4          4".
Definition b13321 : text := " 015033 DIFFERENCE IN PATH DELAYS FOR LIMB VIEWS AT EXTREMES OF SCAN     M                          5       -10000  15 M                         5          5".
Definition b13322 : text := " 015034 ESTIMATED ERROR IN PATH DELAY DIFFERENCE                         M                          5            0  14 M                         5          5".
Definition b13323 : text := " 015035 COMPONENT OF ZENITH PATH DELAY DUE TO WATER VAPOUR               M                          4            0  14 M                         4          5".
Definition b13324 : text := " 019001 TYPE OF SYNOPTIC FEATURE                                         CODE TABLE 19001           0            0   6 CODE TABLE 19001          0          2".
Definition b13325 : text := " 019002 EFFECTIVE RADIUS OF FEATURE                                      M                         -2            0  12 M                        -2          4".
Definition b13326 : text := " 019003 WIND SPEED THRESHOLD                                             M/S                        0            0   8 M/S                       0          3".
Definition b13327 : text := " 019004 EFFECTIVE RADIUS WITH RESPECT TO WIND SPEEDS ABOVE THRESHOLD     M                         -2            0  12 M                        -2          4".
Definition b13328 : text := " 019005 DIRECTION OF MOTION OF FEATURE                                   DEGREE TRUE                0            0   9 DEGREE TRUE               0          3".
Definition b13329 : text := " 019006 SPEED OF MOTION OF FEATURE                                       M/S                        2            0  14 M/S                       2          5".
Definition b13330 : text := " 019007 EFFECTIVE RADIUS OF FEATURE                                      M                         -3            0  12 M                        -3          4".
Definition b13331 : text := " 019008 VERTICAL EXTENT OF CIRCULATION                                   CODE TABLE 19008           0            0   3 CODE TABLE 19008          0          1".
Definition b13332 : text := " 019009 EFFECTIVE RADIUS WITH RESPECT TO WIND SPEEDS ABOVE THRESHOLD (LA M                         -3            0  12 M                        -3          4".
Definition b13333 : text := " 019010 METHOD FOR TRACKING THE CENTRE OF SYNOPTIC FEATURE               CODE TABLE 19010           0            0   4 CODE TABLE 19010          0          2".
Definition b13334 : text := " 020001 HORIZONTAL VISIBILITY                                            M                         -1            0  13 M                        -1          4".
Definition b13335 : text := " 020002 VERTICAL VISIBILITY                                              M                         -1            0   7 M                        -1          3".
Definition b13336 : text := " 020003 PRESENT WEATHER (SEE NOTE 1)                                     CODE TABLE 20003           0            0   9 CODE TABLE 20003          0          3".
Definition b13337 : text := " 020004 PAST WEATHER (1) (SEE NOTE 2)                                    CODE TABLE 20004           0            0   5 CODE TABLE 20004          0          2".
Definition b13338 : text := " 020005 PAST WEATHER (2) (SEE NOTE 2)                                    CODE TABLE 20005           0            0   5 CODE TABLE 20005          0          2".
Definition b13339 : text := " 020008 CLOUD DISTRIBUTION FOR AVIATION                                  CODE TABLE 20008           0            0   5 CODE TABLE 20008          0          2".
Definition b13340 : text := " 020009 GENERAL WEATHER INDICATOR (TAF/METAR)                            CODE TABLE 20009           0            0   4 CODE TABLE 20009          0          2".
Definition b13341 : text := " 020010 CLOUD COVER (TOTAL)                                              %                          0            0   7 %                         0          3".
Definition b13342 : text := " 020011 CLOUD AMOUNT                                                     CODE TABLE 20011           0            0   4 CODE TABLE 20011          0          2".
Definition b13343 : text := " 020012 CLOUD TYPE                                                       CODE TABLE 20012           0            0   6 CODE TABLE 20012          0          2".
Definition b13344 : text := " 020013 HEIGHT OF BASE OF CLOUD                                          M                         -1          -40  11 M                        -1          4".
Definition b13345 : text := " 020014 HEIGHT OF TOP OF CLOUD                                           M                         -1          -40  11 M                        -1          4".
Definition b13346 : text := " 020015 PRESSURE AT BASE OF CLOUD                                        PA                        -1            0  14 PA                       -1          5".
Definition b13347 : text := " 020016 PRESSURE AT TOP OF CLOUD                                         PA                        -1            0  14 PA                       -1          5".
Definition b13348 : text := " 020017 CLOUD TOP DESCRIPTION                                            CODE TABLE 20017           0            0   4 CODE TABLE 20017          0          2".
Definition b13349 : text := " 020018 TENDENCY OF RUNWAY VISUAL RANGE                                  CODE TABLE 20018           0            0   2 CODE TABLE 20018          0          1".
Definition b13350 : text := " 020019 SIGNIFICANT PRESENT OR FORECAST WEATHER                          CCITTIA5                   0            0  72 CHARACTER                 0          9".
Definition b13351 : text := " 020020 SIGNIFICANT RECENT WEATHER PHENOMENA                             CCITTIA5                   0            0  32 CHARACTER                 0          4".
Definition b13352 : text := " 020021 TYPE OF PRECIPITATION                                            FLAG TABLE 20021           0            0  30 FLAG TABLE 20021          0         10".
Definition b13353 : text := " 020022 CHARACTER OF PRECIPITATION                                       CODE TABLE 20022           0            0   4 CODE TABLE 20022          0          2".
Definition b13354 : text := " 020023 OTHER WEATHER PHENOMENA                                          FLAG TABLE 20023           0            0  18 FLAG TABLE 20023          0          6".
Definition b13355 : text := " 020024 INTENSITY OF PHENOMENA                                           CODE TABLE 20024           0            0   3 CODE TABLE 20024          0          1".
Definition b13356 : text := " 020025 OBSCURATION                                                      FLAG TABLE 20025           0            0  21 FLAG TABLE 20025          0          7".
Definition b13357 : text := " 020026 CHARACTER OF OBSCURATION                                         CODE TABLE 20026           0            0   4 CODE TABLE 20026          0          2".
Definition b13358 : text := " 020027 PHENOMENA OCCURRENCE                                             FLAG TABLE 20027           0            0   9 FLAG TABLE 20027          0          3".
Definition b13359 : text := " 020029 RAIN FLAG                                                        CODE TABLE 20029           0            0   2 CODE TABLE 20029          0          1".
Definition b13360 : text := " 020031 ICE DEPOSIT (THICKNESS)                                          M                          2            0   7 M                         2          3".
Definition b13361 : text := " 020032 RATE OF ICE ACCRETION                                            CODE TABLE 20032           0            0   3 CODE TABLE 20032          0          1".
Definition b13362 : text := " 020033 CAUSE OF ICE ACCRETION                                           FLAG TABLE 20033           0            0   4 FLAG TABLE 20033          0          2".
Definition b13363 : text := " 020034 SEA ICE CONCENTRATION                                            CODE TABLE 20034           0            0   5 CODE TABLE 20034          0          2".
Definition b13364 : text := " 020035 AMOUNT AND TYPE OF ICE                                           CODE TABLE 20035           0            0   4 CODE TABLE 20035          0          2".
Definition b13365 : text := " 020036 ICE SITUATION                                                    CODE TABLE 20036           0            0   5 CODE TABLE 20036          0          2".
Definition b13366 : text := " 020037 ICE DEVELOPMENT                                                  CODE TABLE 20037           0            0   5 CODE TABLE 20037          0          2".
Definition b13367 : text := " 020038 BEARING OF ICE EDGE (SEE NOTE 3)                                 DEGREE TRUE                0            0 12* DEGREE TRUE               0          3".
Definition b13368 : text := " 020039 ICE DISTANCE                                                     M                         -1            0  13 M                        -1          4".
Definition b13369 : text := " 020041 AIRFRAME ICING                                                   CODE TABLE 20041           0            0   4 CODE TABLE 20041          0          2".
Definition b13370 : text := " 020042 AIRFRAME ICING PRESENT                                           CODE TABLE 20042           0            0   2 CODE TABLE 20042          0          1".
Definition b13371 : text := " 020043 PEAK LIQUID WATER CONTENT                                        KG/M**3                    4            0   7 KG/M**3                   4          2".
Definition b13372 : text := " 020044 AVERAGE LIQUID WATER CONTENT                                     KG/M**3                    4            0   7 KG/M**3                   4          2".
Definition b13373 : text := " 020045 SUPERCOOLED LARGE DROPLET (SLD) CONDITIONS                       CODE TABLE 20045           0            0   2 CODE TABLE 20045          0          1".
Definition b13374 : text := " 020051 AMOUNT OF LOW CLOUDS                                             %                          0            0   7 %                         0          3".
Definition b13375 : text := " 020052 AMOUNT OF MIDDLE CLOUDS                                          %                          0            0   7 %                         0          3".
Definition b13376 : text := " 020053 AMOUNT OF HIGH CLOUDS                                            %                          0            0   7 %                         0          3".
Definition b13377 : text := " 020061 RUNWAY VISUAL RANGE (RVR)                                        M                          0            0  12 M                         0          4".
Definition b13378 : text := " 020062 STATE OF THE GROUND (WITH OR WITHOUT SNOW)                       CODE TABLE 20062           0            0   5 CODE TABLE 20062          0          2".
Definition b13379 : text := " 020063 SPECIAL PHENOMENA                                                CODE TABLE 20063           0            0  10 CODE TABLE 20063          0          4".
Definition b13380 : text := " 020065 SNOW COVER (SEE NOTE 4)                                          %                          0            0   7 %                         0          3".
Definition b13381 : text := " 020070 MINIMUM NUMBER OF ATMOSPHERICS                                   NUMERIC                    0            0   7 NUMERIC                   0          3".
Definition b13382 : text := " 020071 ACCURACY OF FIX AND RATE OF ATMOSPHERICS                         CODE TABLE 20071           0            0   4 CODE TABLE 20071          0          2".
Definition b13383 : text := " 020081 CLOUD AMOUNT IN SEGMENT                                          %                          0            0   7 %                         0          3".
Definition b13384 : text := " 020082 AMOUNT SEGMENT CLOUD FREE                                        %                          0            0   7 %                         0          3".
Definition b13385 : text := " 020090 SPECIAL CLOUDS                                                   CODE TABLE 20090           0            0   4 CODE TABLE 20090          0          2".
Definition b13386 : text := " 020192 SPECIAL PHENOMENA                                                CODE TABLE  20192          0            0  14 CODE TABLE                0          5".
Definition b13387 : text := " 021001 HORIZONTAL REFLECTIVITY                                          dB                         0          -64   7 dB                        0          3".
Definition b13388 : text := " 021002 VERTICAL REFLECTIVITY                                            dB                         0          -64   7 dB                        0          3".
Definition b13389 : text := " 021003 DIFFERENTIAL REFLECTIVITY                                        dB                         1           -5   7 dB                        1          3".
Definition b13390 : text := " 021005 LINEAR DEPOLARISATION RATIO                                      dB                         0          -65   6 dB                        0          2".
Definition b13391 : text := " 021006 CIRCULAR DEPOLARISATION RATIO                                    dB                         0          -65   6 dB                        0          2".
Definition b13392 : text := " 021011 DOPPLER MEAN VELOCITY IN X-DIRECTION                             M/S                        0         -128   8 M/S                       0          3".
Definition b13393 : text := " 021012 DOPPLER MEAN VELOCITY IN Y-DIRECTION                             M/S                        0         -128   8 M/S                       0          3".
Definition b13394 : text := " 021013 DOPPLER MEAN VELOCITY IN Z-DIRECTION                             M/S                        0         -128   8 M/S                       0          3".
Definition b13395 : text := " 021014 DOPPLER MEAN VELOCITY (RADIAL)                                   M/S                        1        -4096  13 M/S                       1          4".
Definition b13396 : text := " 021017 DOPPLER VELOCITY SPECTRAL WIDTH                                  M/S                        1            0   8 M/S                       1          3".
Definition b13397 : text := " 021021 ECHO TOPS                                                        M                         -3            0   4 M                        -3          2".
Definition b13398 : text := " 021030 SIGNAL TO NOISE RATIO                                            dB                         0          -32   8 dB                        0          3".
Definition b13399 : text := " 021031 VERTICALLY INTEGRATED LIQUID-WATER CONTENT                       KG/M**2                    0            0   7 KG/M**2                   0          3".
Definition b13400 : text := " 021036 RADAR RAINFALL INTENSITY                                         M/S                        7            0  12 M/S                       7          4".
Definition b13401 : text := " 021041 BRIGHT-BAND HEIGHT                                               M                         -2            0   8 M                        -2          3".
Definition b13402 : text := " 021051 SIGNAL POWER ABOVE 1 MW                                          dB                         0         -256   8 dB                        0          3".
Definition b13403 : text := " 021062 BACKSCATTER                                                      dB                         2        -5000  13 dB                        2          4".
Definition b13404 : text := " 021063 RADIOMETRIC RESOLUTION (NOISE VALUE)                             %                          1            0  10 %                         1          4".
Definition b13405 : text := " 021064 CLUTTER NOISE ESTIMATE                                           NUMERIC                    0            0   8 NUMERIC                   0          3".
Definition b13406 : text := " 021065 MISSING PACKET COUNTER                                           NUMERIC                    0         -127   8 NUMERIC                   0          3".
Definition b13407 : text := " 021066 WAVE SCATTEROMETER PRODUCT CONFIDENCE DATA                       FLAG TABLE 21066           0            0  12 FLAG TABLE 21066          0          4".
Definition b13408 : text := " 021067 WIND PRODUCT CONFIDENCE DATA                                     FLAG TABLE 21067           0            0  13 FLAG TABLE 21067          0          5".
Definition b13409 : text := " 021068 RADAR ALTIMETER PRODUCT CONFIDENCE DATA                          FLAG TABLE 21068           0            0   8 FLAG TABLE 21068          0          3".
Definition b13410 : text := " 021069 SST PRODUCT CONFIDENCE DATA                                      FLAG TABLE 21069           0            0  10 FLAG TABLE 21069          0          4".
Definition b13411 : text := " 021070 SST PRODUCT CONFIDENCE DATA (SADIST-2)                           FLAG TABLE 21070           0            0  23 FLAG TABLE 21070          0          6".
Definition b13412 : text := " 021071 PEAKINESS                                                        NUMERIC                    0            0  16 NUMERIC                   0          5".
Definition b13413 : text := " 021072 SATELLITE ALTIMETER CALIBRATION STATUS                           FLAG TABLE 21072           0            0   4 FLAG TABLE 21072          0          2".
Definition b13414 : text := " 021073 SATELLLITE ALTIMETER INSTRUMENT MODE                             FLAG TABLE 21073           0            0   9 FLAG TABLE 21073          0          3".
Definition b13415 : text := " 021075 IMAGE SPECTRUM INTENSITY                                         NUMERIC                    0            0   8 NUMERIC                   0          3".
Definition b13416 : text := " 021076 REPRESENTATION OF INTENSITIES                                    CODE TABLE 21076           0            0   3 CODE TABLE 21076          0          1".
Definition b13417 : text := " 021077 ALTITUDE CORRECTION (IONOSPHERE)                                 M                          3            0  14 M                         3          5".
Definition b13418 : text := " 021078 ALTITUDE CORRECTION (DRY TROPOSPHERE)                            M                          3            0   9 M                         3          3".
Definition b13419 : text := " 021079 ALTITUDE CORRECTION (WET TROPOSPHERE)                            M                          3         2000  10 M                         3          4".
Definition b13420 : text := " 021080 ALTITUDE CORRECTION (CALIBRATION CONSTANT)                       M                          3            0  11 M                         3          4".
Definition b13421 : text := " 021081 OPEN LOOP CORRECTION (HEIGHT-TIME LOOP)                          M                          3            0  10 M                         3          4".
Definition b13422 : text := " 021082 OPEN LOOP CORRECTION (AUTO GAIN CONTROL)                         dB                         3        -3000  14 dB                        3          5".
Definition b13423 : text := " 021083 WARM TARGET CALIBRATION                                          NUMERIC                    0            0  16 NUMERIC                   0          5".
Definition b13424 : text := " 021084 COLD TARGET CALIBRATION                                          NUMERIC                    0            0  16 NUMERIC                   0          5".
Definition b13425 : text := " 021085 ATSR SEA SURFACE TEMPERATURE ACROSS- TRACK BAND NUMBER           NUMERIC                    0            0   4 NUMERIC                   0          2".
Definition b13426 : text := " 021091 RADAR SIGNAL DOPPLER SPECTRUM 0TH MOMENT                         dB                         0         -100   8 dB                        0          3".
Definition b13427 : text := " 021092 RASS SIGNAL DOPPLER SPECTRUM 0TH MOMENT, REFERRING TO RASS SIGNA dB                         0         -100   8 dB                        0          3".
Definition b13428 : text := " 021101 NUMBER OF VECTOR AMBIGUITIES                                     NUMERIC                    0            0   3 NUMERIC                   0          1".
Definition b13429 : text := " 021102 INDEX OF SELECTED WIND VECTOR                                    NUMERIC                    0            0   3 NUMERIC                   0          1".
Definition b13430 : text := " 021103 TOTAL NUMBER OF SIGMA-0 MEASUREMENTS                             NUMERIC                    0            0   5 NUMERIC                   0          2".
Definition b13431 : text := " 021104 LIKELIHOOD COMPUTED FOR SOLUTION                                 NUMERIC                    3       -30000  15 NUMERIC                   3          5".
Definition b13432 : text := " 021105 NORMALIZED RADAR CROSS-SECTION                                   dB                         2       -10000  14 dB                        2          5".
Definition b13433 : text := " 021106 KP VARIANCE COEFFICIENT (ALPHA)                                  NUMERIC                    3            0  14 NUMERIC                   3          5".
Definition b13434 : text := " 021107 KP VARIANCE COEFFICIENT (BETA)                                   NUMERIC                    8            0  16 NUMERIC                   8          5".
Definition b13435 : text := " 021109 SEAWINDS WIND VECTOR CELL QUALITY                                FLAG TABLE 21109           0            0  17 FLAG TABLE 21109          0          6".
Definition b13436 : text := " 021110 NUMBER OF INNER-BEAM SIGMA-0 (FORWARD OF SATELLITE)              NUMERIC                    0            0   6 NUMERIC                   0          2".
Definition b13437 : text := " 021111 NUMBER OF OUTER-BEAM SIGMA-0 (FORWARD OF SATELLITE)              NUMERIC                    0            0   6 NUMERIC                   0          2".
Definition b13438 : text := " 021112 NUMBER OF INNER-BEAM SIGMA-0 (AFT OF SATELLITE)                  NUMERIC                    0            0   6 NUMERIC                   0          2".
Definition b13439 : text := " 021113 NUMBER OF OUTER-BEAM SIGMA-0 (AFT OF SATELLITE)                  NUMERIC                    0            0   6 NUMERIC                   0          2".
Definition b13440 : text := " 021114 KP VARIANCE COEFFICENT (GAMMA)                                   dB                         3      -140000  18 dB                        3          6".
Definition b13441 : text := " 021115 SEAWINDS SIGMA-0 QUALITY                                         FLAG TABLE 21115           0            0  17 FLAG TABLE 21115          0          6".
Definition b13442 : text := " 021116 SEAWINDS SIGMA-0 MODE                                            FLAG TABLE 21116           0            0  17 FLAG TABLE 21116          0          6".
Definition b13443 : text := " 021117 SIGMA-0 VARIANCE QUALITY CONTROL                                 NUMERIC                    2            0  16 NUMERIC                   2          5".
Definition b13444 : text := " 021118 ATTENUATION CORRECTION ON SIGMA-0                                dB                         2       -10000  14 dB                        2          5".
Definition b13445 : text := " 021119 WIND SCATTEROMETER GEOPHYSICAL MODEL FUNCTION                    CODE TABLE 21119           0            0   6 CODE TABLE 21119          0          2".
Definition b13446 : text := " 021120 PROBABILITY OF RAIN                                              NUMERIC                    3            0  10 NUMERIC                   3          4".
Definition b13447 : text := " 021121 SEAWINDS NOF* RAIN INDEX                                         NUMERIC                    0            0   8 NUMERIC                   0          3".
Definition b13448 : text := " 021122 ATTENUATION CORRECTION OF SIGMA-0 (FROM TB)                      dB                         2       -10000  14 dB                        2          5".
Definition b13449 : text := " 021123 SEAWINDS NORMALIZED RADAR CROSS SECTION                          dB                         2       -30000  15 dB                        2          5".
Definition b13450 : text := " 021128 NUMBER OF VALID POINTS PER SECOND USED TO DERIVE PREVIOUS PARAME NUMERIC                    0            0   8 NUMERIC                   0          3".
Definition b13451 : text := " 021192 RADAR BACK SCATTER                                               dB                         2        -5000  13 dB                        2          4".
Definition b13452 : text := " 021193 NOISE FIGURE                                                     %                          0            0   7 %                         0          3".
Definition b13453 : text := " 021194 BACKGROUND NOISE LEVEL                                           NUMERIC                    0            0   8 NUMERIC                   0          3".
Definition b13454 : text := " 021195 MISSING PACKET COUNTER                                           NUMERIC                    0         -127   8 NUMERIC                   0          3".
Definition b13455 : text := " 022001 DIRECTION OF WAVES                                               DEGREE TRUE                0            0   9 DEGREE TRUE               0          3".
Definition b13456 : text := " 022002 DIRECTION OF WIND WAVES                                          DEGREE TRUE                0            0   9 DEGREE TRUE               0          3".
Definition b13457 : text := " 022003 DIRECTION OF SWELL WAVES                                         DEGREE TRUE                0            0   9 DEGREE TRUE               0          3".
Definition b13458 : text := " 022004 DIRECTION OF CURRENT                                             DEGREE TRUE                0            0   9 DEGREE TRUE               0          3".
Definition b13459 : text := " 022011 PERIOD OF WAVES                                                  S                          0            0   6 S                         0          2".
Definition b13460 : text := " 022012 PERIOD OF WIND WAVES                                             S                          0            0   6 S                         0          2".
Definition b13461 : text := " 022013 PERIOD OF SWELL WAVES                                            S                          0            0   6 S                         0          2".
Definition b13462 : text := " 022021 HEIGHT OF WAVES                                                  M                          1            0  10 M                         1          4".
Definition b13463 : text := " 022022 HEIGHT OF WIND WAVES                                             M                          1            0  10 M                         1          4".
Definition b13464 : text := " 022023 HEIGHT OF SWELL WAVES                                            M                          1            0  10 M                         1          4".
Definition b13465 : text := " 022025 STANDARD DEVIATION WAVE HEIGHT                                   M                          2            0  10 M                         2          4".
Definition b13466 : text := " 022026 STANDARD DEVIATION OF SIGNIFICANT WAVE HEIGHT                    M                          2            0  10 M                         2          4".
Definition b13467 : text := " 022031 SPEED OF CURRENT                                                 M/S                        2            0  13 M/S                       2          4".
Definition b13468 : text := " 022035 TIDAL ELEVATION WITH RESPECT TO LOCAL CHART DATUM                M                          2            0  14 M                         2          4".
Definition b13469 : text := " 022036 METEOROLOGICAL RESIDUAL TIDAL ELEVATION (SURGE OR OFFSET)        M                          2            0  14 M                         2          4".
Definition b13470 : text := " 022037 TIDAL ELEVATION WITH RESPECT TO NATIONAL LAND DATUM              M                          3       -10000  15 M                         3          5".
Definition b13471 : text := " 022038 TIDAL ELEVATION WITH RESPECT TO LOCAL CHART DATUM                M                          3       -10000  15 M                         3          5".
Definition b13472 : text := " 022039 METEOROLOGICAL RESIDUAL TIDAL ELEVATION (SURGE OR OFFSET)        M                          3        -5000  12 M                         3          4".
Definition b13473 : text := " 022040 METEOROLOGICAL RESIDUAL TIDAL ELEVATION (SURGE OR OFFSET)        M                          3        -5000  14 M                         3          5".
Definition b13474 : text := " 022041 SEA-SURFACE TEMPERATURE (15-DAY RUNNING MEAN)                    K                          1            0  12 K                         1          4".
Definition b13475 : text := " 022042 SEA/WATER TEMPERATURE                                            K                          1            0  12 K                         1          4".
Definition b13476 : text := " 022043 SEA/WATER TEMPERATURE                                            K                          2            0  15 K                         2          5".
Definition b13477 : text := " 022044 SOUND VELOCITY                                                   M/S                        1            0  14 M/S                       1          5".
Definition b13478 : text := " 022045 SEA/WATER TEMPERATURE                                            K                          3            0  19 K                         3          6".
Definition b13479 : text := " 022050 STANDARD DEVIATION SEA-SURFACE TEMPERATURE                       K                          2            0   8 K                         2          3".
Definition b13480 : text := " 022055 FLOAT CYCLE NUMBER                                               NUMERIC                    0            0  10 NUMERIC                   0          3".
Definition b13481 : text := " 022056 DIRECTION OF PROFILE                                             CODE TABLE 22056           0            0   2 CODE TABLE 22056          0          1".
Definition b13482 : text := " 022060 LAGRANGIAN DRIFTER DROGUE STATUS                                 CODE TABLE 022060          0            0   3 CODE TABLE 22060          0          1".
Definition b13483 : text := " 022061 STATE OF THE SEA                                                 CODE TABLE 22061           0            0   4 CODE TABLE 22061          0          2".
Definition b13484 : text := " 022062 SALINITY                                                         PART PER THOUSAND          2            0  14 PART PER THOUSAND         2          5".
Definition b13485 : text := " 022063 TOTAL WATER DEPTH                                                M                          0            0  14 M                         0          5".
Definition b13486 : text := " 022064 SALINITY                                                         PART PER THOUSAND          3            0  17 PART PER THOUSAND         3          6".
Definition b13487 : text := " 022065 WATER PRESSURE                                                   PA                        -3            0  17 PA                       -3          6".
Definition b13488 : text := " 022066 WATER CONDUCTIVITY                                               S M-1                      6            0  26 S M-1                     6          8".
Definition b13489 : text := " 022067 INSTRUMENT TYPE FOR WATER TEMPERATURE PROFILE MEASUREMENT        CODE TABLE 22067           0            0  10 CODE TABLE 22067          0          4".
Definition b13490 : text := " 022068 WATER TEMPERATURE PROFILE RECORDER TYPES                         CODE TABLE 22068           0            0   7 CODE TABLE 22068          0          3".
Definition b13491 : text := " 022070 SIGNIFICANT WAVE HEIGHT                                          M                          2            0  13 M                         2          4".
Definition b13492 : text := " 022071 SPECTRAL PEAK WAVE PERIOD                                        S                          1            0   9 S                         1          3".
Definition b13493 : text := " 022072 SPECTRAL PEAK WAVE LENGTH                                        M                          0            0  13 M                         0          4".
Definition b13494 : text := " 022073 MAXIMUM WAVE HEIGHT                                              M                          2            0  13 M                         2          4".
Definition b13495 : text := " 022074 AVERAGE WAVE PERIOD                                              S                          1            0   9 S                         1          3".
Definition b13496 : text := " 022075 AVERAGE WAVE LENGTH                                              M                          0            0  13 M                         0          4".
Definition b13497 : text := " 022076 DIRECTION FROM WHICH DOMINANT WAVES ARE COMING                   DEGREE TRUE                0            0   9 DEGREE TRUE               0          3".
Definition b13498 : text := " 022077 DIRECTIONAL SPREAD OF DOMINANT WAVE                              DEGREE                     0            0   9 DEGREE                    0          3".
Definition b13499 : text := " 022078 DURATION OF WAVE RECORD                                          S                          0            0  12 S                         0          4".
Definition b13500 : text := " 022079 LENGTH OF WAVE RECORD                                            M                          0            0  16 M                         0          5".
Definition b13501 : text := " 022080 WAVEBAND CENTRAL FREQUENCY                                       Hz                         3            0  10 Hz                        3          4".
Definition b13502 : text := " 022081 WAVEBAND CENTRAL WAVE NUMBER                                     1/M                        5            0  13 1/M                       5          4".
Definition b13503 : text := " 022082 MAXIMUM NON-DIRECTIONAL SPECTRAL WAVE DENSITY                    M**2S                      2            0  20 M**2S                     2          7".
Definition b13504 : text := " 022083 MAXIMUM NON-DIRECTIONAL SPECTRAL WAVE NUMBER                     M**3                       2            0  20 M**3                      2          7".
Definition b13505 : text := " 022084 BAND CONTAINING MAXIMUM NON- DIRECTIONAL SPECTRAL WAVE DENSITY   NUMERIC                    0            0   7 NUMERIC                   0          3".
Definition b13506 : text := " 022085 SPECTRAL WAVE DENSITY RATIO                                      NUMERIC                    0            0   7 NUMERIC                   0          3".
Definition b13507 : text := " 022086 MEAN DIRECTION FROM WHICH WAVES ARE COMING                       DEGREE TRUE                0            0   9 DEGREE TRUE               0          3".
Definition b13508 : text := " 022087 PRINCIPAL DIRECTION FROM WHICH WAVES ARE COMING                  DEGREE TRUE                0            0   9 DEGREE TRUE               0          3".
Definition b13509 : text := " 022088 FIRST NORMALIZED POLAR COORDINATE FROM FOURIER COEFFICIENTS      NUMERIC                    2            0   7 NUMERIC                   2          3".
Definition b13510 : text := " 022089 SECOND NORMALIZED POLAR COORDINATE FROM FOURIER COEFFICIENTS     NUMERIC                    2            0   7 NUMERIC                   2          3".
Definition b13511 : text := " 022090 NON-DIRECTIONAL SPECTRAL ESTIMATE BY WAVE FREQUENCY              M**2S                      2            0  20 M**2S                     2          7".
Definition b13512 : text := " 022091 NON-DIRECTIONAL SPECTRAL ESTIMATE BY WAVE NUMBER                 M**3                       2            0  20 M**3                      2          7".
Definition b13513 : text := " 022092 DIRECTIONAL SPECTRAL ESTIMATE BY WAVE FREQUENCY                  M**2S/RAD                  2            0  20 M**2S/RAD                 2          7".
Definition b13514 : text := " 022093 DIRECTIONAL SPECTRAL ESTIMATE BY WAVE NUMBER                     M**4                       2            0  20 M**4                      2          7".
Definition b13515 : text := " 022094 TOTAL NUMBER OF WAVE BANDS                                       NUMERIC                    0            0   7 NUMERIC                   0          3".
Definition b13516 : text := " 022095 DIRECTIONAL SPREAD OF INDIVIDUAL WAVES                           DEGREE                     0            0   8 DEGREE                    0          3".
Definition b13517 : text := " 022096 SPECTRAL BAND WIDTH                                              1/S                        3            0   4 1/S                       3          2".
Definition b13518 : text := " 022097 MEAN WAVELENGTH > 731 M OF IMAGE SPECTRUM AT LOW WAVE NUMBERS    M                          0            0  14 M                         0          5".
Definition b13519 : text := " 022098 WAVELENGTH SPREAD (WAVELENGTH > 731 M) AT LOW WAVE NUMBERS       M                          0            0  14 M                         0          5".
Definition b13520 : text := " 022099 MEAN DIRECTION AT LOW WAVE NUMBERS (WAVELENGTH > 731 M)          DEGREE TRUE                0            0   9 DEGREE TRUE               0          3".
Definition b13521 : text := " 022100 DIRECTION SPREAD AT LOW WAVE NUMBERS(WAVELENGTH > 731 M)         DEGREE                     0            0   9 DEGREE                    0          3".
Definition b13522 : text := " 022101 TOTAL ENERGY (WAVELENGTH > 731M) AT LOW WAVE NUMBERS             NUMERIC                    0            0  31 NUMERIC                   0         10".
Definition b13523 : text := " 022120 TIDE STATION AUTOMATED WATER LEVEL CHECK                         CODE TABLE 22120           0            0   5 CODE TABLE 22120          0          2".
Definition b13524 : text := " 022121 TIDE STATION MANUAL WATER LEVEL CHECK                            CODE TABLE 22121           0            0   5 CODE TABLE 22121          0          2".
Definition b13525 : text := " 022122 TIDE STATION AUTOMATED METEOROLOGICAL DATA CHECK                 CODE TABLE 22122           0            0   5 CODE TABLE 22122          0          2".
Definition b13526 : text := " 022123 TIDE STATION MANUAL METEOROLOGICAL DATA CHECK                    CODE TABLE 22123           0            0   5 CODE TABLE 22123          0          2".
Definition b13527 : text := " 022141 SEA-SURFACE TEMPERATURE (15-DAY RUNNING MEAN)                    K                          2            0  15 K                         2          5".
Definition b13528 : text := " 023001 ACCIDENT EARLY NOTIFICATION - ARTICLE APPLICABLE                 CODE TABLE 23001           0            0   3 CODE TABLE 23001          0          1".
Definition b13529 : text := " 023002 ACTIVITY OR FACILITY INVOLVED IN INCIDENT                        CODE TABLE 23002           0            0   5 CODE TABLE 23002          0          2".
Definition b13530 : text := " 023003 TYPE OF RELEASE                                                  CODE TABLE 23003           0            0   3 CODE TABLE 23003          0          1".
Definition b13531 : text := " 023004 COUNTERMEASURES TAKEN NEAR BORDER                                CODE TABLE 23004           0            0   3 CODE TABLE 23004          0          1".
Definition b13532 : text := " 023005 CAUSE OF INCIDENT                                                CODE TABLE 23005           0            0   2 CODE TABLE 23005          0          1".
Definition b13533 : text := " 023006 INCIDENT SITUATION                                               CODE TABLE 23006           0            0   3 CODE TABLE 23006          0          1".
Definition b13534 : text := " 023007 CHARACTERISTICS OF RELEASE                                       CODE TABLE 23007           0            0   3 CODE TABLE 23007          0          1".
Definition b13535 : text := " 023008 STATE OF CURRENT RELEASE                                         CODE TABLE 23008           0            0   2 CODE TABLE 23008          0          1".
Definition b13536 : text := " 023009 STATE OF EXPECTED RELEASE                                        CODE TABLE 23009           0            0   2 CODE TABLE 23009          0          1".
Definition b13537 : text := " 023016 POSSIBILITY OF SIGNIFICANT CHEMICAL TOXIC HEALTH EFFECT          CODE TABLE 23016           0            0   2 CODE TABLE 23016          0          1".
Definition b13538 : text := " 023017 FLOW DISCHARGE OF MAJOR RECIPIENT                                M**3/S                     6            0  20 M**3/S                    6          7".
Definition b13539 : text := " 023018 RELEASE BEHAVIOUR OVER TIME                                      CODE TABLE 23018           0            0   3 CODE TABLE 23018          0          1".
Definition b13540 : text := " 023019 ACTUAL RELEASE HEIGHT                                            M                          0       -15000  17 M                         0          6".
Definition b13541 : text := " 023021 EFFECTIVE RELEASE HEIGHT                                         M                          0       -15000  17 M                         0          6".
Definition b13542 : text := " 023022 DISTANCE OF RELEASE POINT OR SITE OF INCIDENT                    M                          0            0  24 M                         0          8".
Definition b13543 : text := " 023023 MAIN TRANSPORT SPEED IN THE ATMOSPHERE                           M/S                        1            0  12 M/S                       1          4".
Definition b13544 : text := " 023024 MAIN TRANSPORT SPEED IN WATER                                    M/S                        2            0  13 M/S                       2          4".
Definition b13545 : text := " 023025 MAIN TRANSPORT SPEED IN GROUND WATER                             M/S                        2            0  13 M/S                       2          4".
Definition b13546 : text := " 023027 MAIN TRANSPORT DIRECTION IN THE ATMOSPHERE                       DEGREE TRUE                0            0   9 DEGREE TRUE               0          3".
Definition b13547 : text := " 023028 MAIN TRANSPORT DIRECTION IN WATER                                DEGREE TRUE                0            0   9 DEGREE TRUE               0          3".
Definition b13548 : text := " 023029 MAIN TRANSPORT DIRECTION IN GROUND WATER                         DEGREE TRUE                0            0   9 DEGREE TRUE               0          3".
Definition b13549 : text := " 023031 POSSIBILITY THAT PLUME WILL ENCOUNTER PRECIPITATION IN STATE IN  CODE TABLE 23031           0            0   2 CODE TABLE 23031          0          1".
Definition b13550 : text := " 023032 PLUME WILL ENCOUNTER CHANGE IN WIND DIRECTION AND/OR SPEED FLAG  CODE TABLE 23032           0            0   2 CODE TABLE 23032          0          1".
Definition b13551 : text := " 024001 ESTIMATE OF AMOUNT OF RADIOACTIVITY RELEASED UP TO SPECIFIED TIM Bq                       -11            0  28 Bq                      -11          9".
Definition b13552 : text := " 024002 ESTIMATED MAXIMUM POTENTIAL RELEASE                              Bq                       -11            0  28 Bq                      -11          9".
Definition b13553 : text := " 024003 COMPOSITION OF RELEASE                                           CODE TABLE 24003           0            0   5 CODE TABLE 24003          0          2".
Definition b13554 : text := " 024004 ELEMENT NAME                                                     CCITTIA5                   0            0  16 CHARACTER                 0          2".
Definition b13555 : text := " 024005 ISOTOPE MASS                                                     NUMERIC                    0            0   9 NUMERIC                   0          3".
Definition b13556 : text := " 024011 DOSE                                                             mSv                        2            0  32 mSv                       2         10".
Definition b13557 : text := " 024012 TRAJECTORY DOSE (DEFINED LOCATION AND EXPECTED TIME OF ARRIVAL)  mSv                        2            0  32 mSv                       2         10".
Definition b13558 : text := " 024013 GAMMA DOSE IN AIR ALONG THE MAIN TRANSPORT PATH (DEFINED LOCATIO mSv                        2            0  32 mSv                       2         10".
Definition b13559 : text := " 024021 AIR CONCENTRATION (OF NAMED ISOTOPE TYPE INCLUDING GROSS BETA)   Bq/M**3                    2            0  32 Bq/M**3                   2         10".
Definition b13560 : text := " 024022 CONCENTRATION IN PRECIPITATION (OF NAMES ISOTOPE TYPE)           Bq/L                       2            0  32 BQ L-1                    2         10".
Definition b13561 : text := " 024023 PULSE RATE OF BETA RADIATION                                     1/S                        1            0  14 1/S                       1          4".
Definition b13562 : text := " 024024 PULSE RATE OF GAMMA RADIATION                                    1/S                        1            0  14 1/S                       1          4".
Definition b13563 : text := " 025001 RANGE-GATE LENGTH                                                M                         -1            0   6 M                        -1          2".
Definition b13564 : text := " 025002 NUMBER OF GATES AVERAGED                                         NUMERIC                    0            0   4 NUMERIC                   0          2".
Definition b13565 : text := " 025003 NUMBER OF INTEGRATED PULSES                                      NUMERIC                    0            0   8 NUMERIC                   0          3".
Definition b13566 : text := " 025004 ECHO PROCESSING                                                  CODE TABLE 25004           0            0   2 CODE TABLE 25004          0          1".
Definition b13567 : text := " 025005 ECHO INTEGRATION                                                 CODE TABLE 25005           0            0   2 CODE TABLE 25005          0          1".
Definition b13568 : text := " 025006 Z TO R CONVERSION                                                CODE TABLE 25006           0            0   3 CODE TABLE 25006          0          1".
Definition b13569 : text := " 025007 Z TO R CONVERSION FACTOR                                         NUMERIC                    0            0  12 NUMERIC                   0          4".
Definition b13570 : text := " 025008 Z TO R CONVERSION EXPONENT                                       NUMERIC                    2            0   9 NUMERIC                   2          3".
Definition b13571 : text := " 025009 CALIBRATION METHOD                                               FLAG TABLE 25009           0            0   4 FLAG TABLE 25009          0          2".
Definition b13572 : text := " 025010 CLUTTER TREATMENT                                                CODE TABLE 25010           0            0   4 CODE TABLE 25010          0          2".
Definition b13573 : text := " 025011 GROUND OCCULTATION CORRECTION (SCREENING)                        CODE TABLE 25011           0            0   2 CODE TABLE 25011          0          1".
Definition b13574 : text := " 025012 RANGE ATTENUATION CORRECTION                                     CODE TABLE 25012           0            0   2 CODE TABLE 25012          0          1".
Definition b13575 : text := " 025013 BRIGHT-BAND CORRECTION                                           FLAG TABLE 25013           0            0   2 FLAG TABLE 25013          0          1".
Definition b13576 : text := " 025014 AZIMUTH CLUTTER CUT-OFF (SEE NOTE 1)                             NUMERIC                    0            0  12 NUMERIC                   0          4".
Definition b13577 : text := " 025015 RADOME ATTENUATION CORRECTION                                    FLAG TABLE 25015           0            0   2 FLAG TABLE 25015          0          1".
Definition b13578 : text := " 025016 CLEAR-AIR ATTENUATION CORRECTION                                 dB/M                       5            0   6 dB/M                      5          2".
Definition b13579 : text := " 025017 PRECIPITATION ATTENUATION CORRECTION                             FLAG TABLE 25017           0            0   2 FLAG TABLE 25017          0          1".
Definition b13580 : text := " 025018 A TO Z LAW FOR ATTENUATION FACTOR                                NUMERIC                    7            0   6 NUMERIC                   7          2".
Definition b13581 : text := " 025019 A TO Z LAW FOR ATTENUATION EXPONENT                              NUMERIC                    2            0   7 NUMERIC                   2          3".
Definition b13582 : text := " 025020 MEAN SPEED ESTIMATION                                            CODE TABLE 25020           0            0   2 CODE TABLE 25020          0          1".
Definition b13583 : text := " 025021 WIND COMPUTATION ENHANCEMENT                                     FLAG TABLE 25021           0            0   8 FLAG TABLE 25021          0          3".
Definition b13584 : text := " 025025 BATTERY VOLTAGE                                                  V                          1            0   9 V                         1          3".
Definition b13585 : text := " 025026 BATTERY VOLTAGE (LARGE RANGE)                                    V                          1            0  12 V                         1          4".
Definition b13586 : text := " 025028 OPERATOR OR MANUFACTURER DEFINED PARAMETER                       NUMERIC                    1       -16384  15 NUMERIC                   1          5".
Definition b13587 : text := " 025030 RUNNING MEAN SEA-SURFACE TEMPERATURE USAGE                       CODE TABLE 25030           0            0   2 CODE TABLE 25030          0          1".
Definition b13588 : text := " 025032 WIND PROFILER MODE INFORMATION                                   CODE TABLE 25032           0            0   2 CODE TABLE 25032          0          1".
Definition b13589 : text := " 025033 WIND PROFILER SUBMODE INFORMATION*                               CODE TABLE 25033           0            0   2 CODE TABLE 25033          0          1".
Definition b13590 : text := " 025034 WIND PROFILER QUALITY CONTROL TEST RESULTS*                      FLAG TABLE 25034           0            0   4 FLAG TABLE 25034          0          2".
Definition b13591 : text := " 025036 ATMOSPHERICS LOCATION METHOD                                     CODE TABLE 25036           0            0   4 CODE TABLE 25036          0          2".
Definition b13592 : text := " 025040 CO2 WIND PRODUCT DERIVATION                                      CODE TABLE 25040           0            0   4 CODE TABLE 25040          0          2".
Definition b13593 : text := " 025041 MOVING PLATFORM DIRECTION REPORTING METHOD                       CODE TABLE 25041           0            0   2 CODE TABLE 25041          0          1".
Definition b13594 : text := " 025042 MOVING PLATFORM SPEED REPORTING METHOD                           CODE TABLE 25042           0            0   2 CODE TABLE 25042          0          1".
Definition b13595 : text := " 025043 WAVE SAMPLING INTERVAL (TIME)                                    S                          4            0  15 S                         4          5".
Definition b13596 : text := " 025044 WAVE SAMPLING INTERVAL (SPACE)                                   M                          2            0  14 M                         2          5".
Definition b13597 : text := " 025045 HIRS CHANNEL COMBINATION                                         FLAG TABLE 25045           0            0  21 FLAG TABLE 25045          0          7".
Definition b13598 : text := " 025046 MSU CHANNEL COMBINATION                                          FLAG TABLE 25046           0            0   5 FLAG TABLE 25046          0          2".
Definition b13599 : text := " 025047 SSU CHANNEL COMBINATION                                          FLAG TABLE 25047           0            0   4 FLAG TABLE 25047          0          2".
Definition b13600 : text := " 025048 AMSU-A CHANNEL COMBINATION                                       FLAG TABLE 25048           0            0  16 FLAG TABLE 25048          0          6".
Definition b13601 : text := " 025049 AMSU-B CHANNEL COMBINATION                                       FLAG TABLE 25049           0            0   6 FLAG TABLE 25049          0          2".
Definition b13602 : text := " 025051 AVHRR CHANNEL COMBINATION                                        FLAG TABLE 25051           0            0   7 FLAG TABLE 25051          0          3".
Definition b13603 : text := " 025053 OBSERVATION QUALITY                                              FLAG TABLE 25053           0            0  12 FLAG TABLE 25053          0          4".
Definition b13604 : text := " 025054 SSMIS SUBFRAME ID NEMBER                                         NUMERIC                    0            0   5 NUMERIC                   0          2".
Definition b13605 : text := " 025055 MULTIPLEXER HOUSEKEEPING                                         K                          2            0  16 K                         2          5".
Definition b13606 : text := " 025060 SOFTWARE IDENTIFICATION (SEE NOTE 2)                             NUMERIC                    0            0  14 NUMERIC                   0          5".
Definition b13607 : text := " 025061 SOFTWARE IDENTIFICATION AND VERSION NUMBER                       CCITTIA5                   0            0  96 CHARACTER                 0         12".
Definition b13608 : text := " 025065 ORIENTATION CORRECTION (AZIMUTH)                                 DEGREE                     2        -1000  11 DEGREE                    2          4".
Definition b13609 : text := " 025066 ORIENTATION CORRECTION (ELEVATION)                               DEGREE                     2        -1000  11 DEGREE                    2          4".
Definition b13610 : text := " 025067 RADIOSONDE RELEASE POINT PRESSURE CORRECTION                     PA                         0        -8000  14 PA                        0          4".
Definition b13611 : text := " 025068 NUMBER OF ARCHIVE RECOMPUTES                                     NUMERIC                    0            0   7 NUMERIC                   0          3".
Definition b13612 : text := " 025069 FLIGHT LEVEL PRESSURE CORRECTIONS                                FLAG TABLE 25069           0            0   8 FLAG TABLE 25069          0          3".
Definition b13613 : text := " 025070 MAJOR FRAME COUNT                                                NUMERIC                    0            0   4 NUMERIC                   0          2".
Definition b13614 : text := " 025071 FRAME COUNT                                                      NUMERIC                    0            0   5 NUMERIC                   0          2".
Definition b13615 : text := " 025075 SATELLITE ANTENNA CORRECTIONS VERSION NUMBER                     NUMERIC                    0            0   5 NUMERIC                   0          2".
Definition b13616 : text := " 025076 LOG-10 OF (TEMPERATURE-RADIANCE CENTRAL WAVE NUMBER) FOR ATOVS   LOG (1/M)                  8            0  30 LOG (1/M)                 8         10".
Definition b13617 : text := " 025077 BANDWIDTH CORRECTION COEFFICIENT 1 FOR ATOVS                     NUMERIC                    5      -100000  18 NUMERIC                   5          7".
Definition b13618 : text := " 025078 BANDWIDTH CORRECTION COEFFICIENT 2 FOR ATOVS                     NUMERIC                    5            0  17 NUMERIC                   5          6".
Definition b13619 : text := " 025079 ALBEDO-RADIANCE SOLAR FILTERED IRRADIANCE FOR ATOVS              W/M**2                     4            0  24 W/M**2                    4          8".
Definition b13620 : text := " 025080 ALBEDO-RADIANCE EQUIVALENT FILTER WIDTH FOR ATOVS                M                         10            0  14 M                        10          5".
Definition b13621 : text := " 025085 FRACTION OF CLEAR PIXELS IN HIRS FOV                             NUMERIC                    0            0   7 NUMERIC                   0          3".
Definition b13622 : text := " 025086 DEPTH CORRECTION INDICATOR                                       CODE TABLE 25086           0            0   2 CODE TABLE 25086          0          1".
Definition b13623 : text := " 025091 STRUCTURE CONSTANT OF THE REFRACTION INDEX (CN2)                 dB                         3       -18192  13 dB                        3          5".
Definition b13624 : text := " 025092 ACOUSTIC PROPAGATION VELOCITY                                    M/S                        2        28000  14 M/S                       2          5".
Definition b13625 : text := " 025093 RASS COMPUTATION CORRECTION                                      FLAG TABLE 25093           0            0   8 FLAG TABLE 25093          0          3".
Definition b13626 : text := " 025095 ALTIMETER STATE FLAG                                             FLAG TABLE 25095           0            0   2 FLAG TABLE 25095          0          1".
Definition b13627 : text := " 025096 RADIOMETER STATE FLAG                                            FLAG TABLE 25096           0            0   5 FLAG TABLE 25096          0          2".
Definition b13628 : text := " 025097 THREE DIMENSIONAL ERROR ESTIMATE OF THE NAVIGATOR ORBIT          CODE TABLE 25097           0            0   4 CODE TABLE 25097          0          2".
Definition b13629 : text := " 025100 XBT/XCTD FALL RATE EQUATION COEFFICIENT A                        NUMERIC                    5            0  20 NUMERIC                   5          6".
Definition b13630 : text := " 025101 XBT/XCTD FALL RATE EQUATION COEFFICIENT B                        NUMERIC                    5      -500000  21 NUMERIC                   5          6".
Definition b13631 : text := " 026001 PRINCIPAL TIME OF DAILY READING IN UTC OF MAXIMUM TEMPERATURE    HOUR                       1            0  12 HOUR                      1          3".
Definition b13632 : text := " 026002 PRINCIPAL TIME OF DAILY READING IN UTC OF MINIMUM TEMPERATURE    HOUR                       1            0  12 HOUR                      1          3".
Definition b13633 : text := " 026003 TIME DIFFERENCE                                                  MINUTE                     0        -1440  12 MINUTE                    0          4".
Definition b13634 : text := " 026010 HOURS INCLUDED                                                   FLAG TABLE 26010           0            0  26 FLAG TABLE 26010          0          9".
Definition b13635 : text := " 026020 DURATION OF PRECIPITATION                                        MINUTE                     0            0  11 MINUTE                    0          4".
Definition b13636 : text := " 027001 LATITUDE (HIGH ACCURACY)                                         DEGREE                     5     -9000000  25 DEGREE                    5          7".
Definition b13637 : text := " 027002 LATITUDE (COARSE ACCURACY)                                       DEGREE                     2        -9000  15 DEGREE                    2          4".
Definition b13638 : text := " 027003 ALTERNATE LATITUDE (COARSE ACCURACY)                             DEGREE                     2        -9000  15 DEGREE                    2          4".
Definition b13639 : text := " 027004 ALTERNATE LATITUDE (HIGH ACCURACY)                               DEGREE                     5     -9000000  25 DEGREE                    5          7".
Definition b13640 : text := " 027020 SATELLITE LOCATION COUNTER                                       NUMERIC                    0            0  16 NUMERIC                   0          5".
Definition b13641 : text := " 027021 SATELLITE SUBLOCATION DIMENSION                                  NUMERIC                    0            0  16 NUMERIC                   0          5".
Definition b13642 : text := " 027031 IN DIRECTION OF 0 DEGREES LONGITUDE, DISTANCE FROM THE EARTH'S C M                          2  -1073741824  31 M                         2         10".
Definition b13643 : text := " 028001 LONGITUDE (HIGH ACCURACY)                                        DEGREE                     5    -18000000  26 DEGREE                    5          8".
Definition b13644 : text := " 028002 LONGITUDE (COARSE ACCURACY)                                      DEGREE                     2       -18000  16 DEGREE                    2          5".
Definition b13645 : text := " 028003 ALTERNATE LONGITUDE (COARSE ACCURACY)                            DEGREE                     2       -18000  16 DEGREE                    2          5".
Definition b13646 : text := " 028004 ALTERNATE LONGITUDE (HIGH ACCURACY)                              DEGREE                     5    -18000000  26 DEGREE                    5          8".
Definition b13647 : text := " 028031 IN DIRECTION 90 DEGREES EAST, DISTANCE FROM THE EARTH'S CENTRE   M                          2  -1073741824  31 M                         2         10".
Definition b13648 : text := " 029001 PROJECTION TYPE                                                  CODE TABLE 29001           0            0   3 CODE TABLE 29001          0          1".
Definition b13649 : text := " 029002 CO-ORDINATE GRID TYPE                                            CODE TABLE 29002           0            0   3 CODE TABLE 29002          0          1".
Definition b13650 : text := " 030001 PIXEL VALUE (4 BITS)                                             NUMERIC                    0            0   4 NUMERIC                   0          2".
Definition b13651 : text := " 030002 PIXEL VALUE (8 BITS)                                             NUMERIC                    0            0   8 NUMERIC                   0          3".
Definition b13652 : text := " 030004 PIXEL VALUE (16 BITS)                                            NUMERIC                    0            0  16 NUMERIC                   0          5".
Definition b13653 : text := " 030021 NUMBER OF PIXELS PER ROW                                         NUMERIC                    0            0  12 NUMERIC                   0          4".
Definition b13654 : text := " 030022 NUMBER OF PIXELS PER COLUMN                                      NUMERIC                    0            0  12 NUMERIC                   0          4".
Definition b13655 : text := " 030031 PICTURE TYPE                                                     CODE TABLE 30031           0            0   4 CODE TABLE 30031          0          2".
Definition b13656 : text := " 030032 COMBINATION WITH OTHER DATA                                      FLAG TABLE 30032           0            0  16 FLAG TABLE 30032          0          6".
Definition b13657 : text := " 031000 SHORT DELAYED DESCRIPTOR REPLICATION FACTOR                      NUMERIC                    0            0   1 NUMERIC                   0          1".
Definition b13658 : text := " 031001 DELAYED DESCRIPTOR REPLICATION FACTOR                            NUMERIC                    0            0   8 NUMERIC                   0          3".
Definition b13659 : text := " 031002 EXTENDED DELAYED DESCRIPTOR REPLICATION FACTOR                   NUMERIC                    0            0  16 NUMERIC                   0          5".
Definition b13660 : text := " 031011 DELAYED DESCRIPTOR AND DATA REPETITION FACTOR                    NUMERIC                    0            0   8 NUMERIC                   0          3".
Definition b13661 : text := " 031012 EXTENDED DELAYED DESCRIPTOR AND DATA REPETITION FACTOR           NUMERIC                    0            0  16 NUMERIC                   0          5".
Definition b13662 : text := " 031021 ASSOCIATED FIELD SIGNIFICANCE                                    CODE TABLE 31021           0            0   6 CODE TABLE 31021          0          2".
Definition b13663 : text := " 031031 DATA PRESENT INDICATOR                                           FLAG TABLE 31031           0            0   1 FLAG TABLE 31031          0          1".
Definition b13664 : text := " 033002 QUALITY INFORMATION                                              CODE TABLE 33002           0            0   2 CODE TABLE 33002          0          1".
Definition b13665 : text := " 033003 QUALITY INFORMATION                                              CODE TABLE 33003           0            0   3 CODE TABLE 33003          0          1".
Definition b13666 : text := " 033005 QUALITY INFORMATION (AWS DATA)                                   FLAG TABLE 33005           0            0  30 FLAG TABLE 33005          0         10".
Definition b13667 : text := " 033006 INTERNAL MEASUREMENT STATUS INFORMATION (AWS)                    CODE TABLE 33006           0            0   3 CODE TABLE 33006          0          1".
Definition b13668 : text := " 033007 PER CENT CONFIDENCE                                              %                          0            0   7 %                         0          3".
Definition b13669 : text := " 033015 DATA QUALITY CHECK INDICATOR                                     CODE TABLE 33015           0            0   6 CODE TABLE 33015          0          2".
Definition b13670 : text := " 033020 QUALITY CONTROL INDICATION OF FOLLOWING VALUE                    CODE TABLE 33020           0            0   3 CODE TABLE 33020          0          1".
Definition b13671 : text := " 033021 QUALITY OF FOLLOWING VALUE                                       CODE TABLE 33021           0            0   2 CODE TABLE 33021          0          1".
Definition b13672 : text := " 033022 QUALITY OF BUOY SATELLITE TRANSMISSION                           CODE TABLE 33022           0            0   2 CODE TABLE 33022          0          1".
Definition b13673 : text := " 033023 QUALITY OF BUOY LOCATION                                         CODE TABLE 33023           0            0   2 CODE TABLE 33023          0          1".
Definition b13674 : text := " 033024 STATION ELEVATION QUALITY MARK (FOR MOBILE STATIONS)             CODE TABLE 33024           0            0   4 CODE TABLE 33024          0          2".
Definition b13675 : text := " 033025 ACARS INTERPOLATED VALUES                                        CODE TABLE 33025           0            0   3 CODE TABLE 33025          0          1".
Definition b13676 : text := " 033026 MOISTURE QUALITY                                                 CODE TABLE 33026           0            0   6 CODE TABLE 33026          0          2".
Definition b13677 : text := " 033027 LOCATION QUALITY CLASS (RANGE OF RADIUS OF 66 % CONFIDENCE)      CODE TABLE 33027           0            0   3 CODE TABLE 33027          0          1".
Definition b13678 : text := " 033030 SCAN LINE STATUS FLAGS FOR ATOVS                                 FLAG TABLE 33030           0            0  24 FLAG TABLE 33030          0          8".
Definition b13679 : text := " 033031 SCAN LINE QUALITY FLAGS FOR ATOVS                                FLAG TABLE 33031           0            0  24 FLAG TABLE 33031          0          8".
Definition b13680 : text := " 033032 CHANNEL QUALITY FLAGS FOR ATOVS                                  FLAG TABLE 33032           0            0  24 FLAG TABLE 33032          0          8".
Definition b13681 : text := " 033033 FIELD OF VIEW QUALITY FLAGS FOR ATOVS                            FLAG TABLE 33033           0            0  24 FLAG TABLE 33033          0          8".
Definition b13682 : text := " 033035 MANUAL/AUTOMATIC QUALITY CONTROL                                 CODE TABLE 33035           0            0   4 CODE TABLE 33035          0          2".
Definition b13683 : text := " 033036 NOMINAL CONFIDENCE THRESHOLD                                     %                          0            0   7 %                         0          3".
Definition b13684 : text := " 033037 WIND CORRELATION ERROR                                           FLAG TABLE 33037           0            0  20 FLAG TABLE 33037          0          7".
Definition b13685 : text := " 033038 QUALITY FLAGS FOR GROUND-BASED GNSS DATA                         FLAG TABLE 33038           0            0  10 FLAG TABLE 33038          0          4".
Definition b13686 : text := " 033040 CONFIDENCE INTERVAL                                              %                          0            0   7 PERCENT                   0          3".
Definition b13687 : text := " 033041 ATTRIBUTE OF FOLLOWING VALUE                                     CODE TABLE 33041           0            0   2 CODE TABLE 33041          0          1".
Definition b13688 : text := " 033050 GLOBAL GTSPP QUALITY FLAG                                        CODE TABLE 33050           0            0   4 CODE TABLE 33050          0          2".
Definition b13689 : text := " 035000 FM AND REGIONAL CODE NUMBER                                      CODE TABLE 35000           0            0  10 CODE TABLE 35000          0          3".
Definition b13690 : text := " 035001 TIME-FRAME FOR MONITORING                                        CODE TABLE 35001           0            0   3 CODE TABLE 35001          0          1".
Definition b13691 : text := " 035011 NUMBER OF REPORTS ACTUALLY RECEIVED                              NUMERIC                    0            0  14 NUMERIC                   0          4".
Definition b13692 : text := " 035021 BULLETIN BEING MONITORED (TTAAII)                                CCITTIA5                   0            0  48 CHARACTER                 0          6".
Definition b13693 : text := " 035022 BULLETIN BEING MONITORED (YYGGGG)                                CCITTIA5                   0            0  48 CHARACTER                 0          6".
Definition b13694 : text := " 035023 BULLETIN BEING MONITORED (CCCC)                                  CCITTIA5                   0            0  32 CHARACTER                 0          4".
Definition b13695 : text := " 035024 BULLETIN BEING MONITORED (BBB)                                   CCITTIA5                   0            0  24 CHARACTER                 0          3".
Definition b13696 : text := " 035030 DISCREPANCIES IN THE AVAILABILITY OF EXPECTED DATA               CODE TABLE 35030           0            0   4 CODE TABLE 35030          0          1".
Definition b13697 : text := " 035031 QUALIFIER ON MONITORING RESULTS                                  CODE TABLE 35031           0            0   7 CODE TABLE 35031          0          2".
Definition b13698 : text := " 035032 CAUSE OF MISSING DATA                                            CODE TABLE 35032           0            0   4 CODE TABLE 35032          0          1".
Definition b13699 : text := " 035033 OBSERVATION AND COLLECTION DEFICIENCIES                          CODE TABLE 35033           0            0   7 CODE TABLE 35033          0          2".
Definition b13700 : text := " 035034 STATISTICAL TRENDS FOR AVAILABILITY OF DATA (DURING THE SURVEY P CODE TABLE 35034           0            0   3 CODE TABLE 35034          0          1".
Definition b13701 : text := " 035035 REASON FOR TERMINATION                                           CODE TABLE 35035           0            0   5 CODE TABLE 35035          0          2".
Definition b13702 : text := " 004086 LONG TIME PERIOD OR DISPLACEMENT                                 SECOND                     0        -8192  15 SECOND                    0          5".
Definition b13703 : text := " 005015 LATITUDE DISPLACEMENT (HIGH ACCURACY)                            DEGREE                     5     -9000000  25 DEGREE                    5          7".
Definition b13704 : text := " 006015 LONGITUDE DISPLACEMENT (HIGH ACCURACY)                           DEGREE                     5    -18000000  26 DEGREE                    5          8".
Definition b13705 : text := " 012049 TEMPERATURE CHANGE OVER SPECIFIED PERIOD                         K                          0          -30   6 C                         0          2".
Definition b13706 : text := " 020054 TRUE DIRECTION FROM WHICH CLOUDS ARE MOVING                      DEGREE TRUE                0            0   9 DEGREE TRUE               0          3".
