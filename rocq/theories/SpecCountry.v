(** The flag states behind the maritime identification digits, for C52. *)
From Coq Require Import List NArith String.
From Verif Require Import Base Str.
Import ListNotations.
Open Scope N_scope.

(** The allocations of the ITU as listed in mid-to-iso3166.py:26-321, arranged by country with its ISO
    3166 code from mid-to-iso3166.py:324-574. Parts of a country with an ISO code of their own have
    their own line; 306 is shared by three of them. *)
Definition flag_states : list (string * string * list N) :=
  [
   ("AD", "Andorra", [202]);
   ("AE", "United Arab Emirates", [470; 471]);
   ("AF", "Afghanistan", [401]);
   ("AG", "Antigua and Barbuda", [304; 305]);
   ("AI", "Anguilla", [301]);
   ("AL", "Albania", [201]);
   ("AM", "Armenia", [216]);
   ("AO", "Angola", [603]);
   ("AR", "Argentina", [701]);
   ("AS", "American Samoa", [559]);
   ("AT", "Austria", [203]);
   ("AU", "Australia", [503]);
   ("AW", "Aruba", [307]);
   ("AZ", "Azerbaijan", [423]);
   ("BA", "Bosnia and Herzegovina", [478]);
   ("BB", "Barbados", [314]);
   ("BD", "Bangladesh", [405]);
   ("BE", "Belgium", [205]);
   ("BF", "Burkina Faso", [633]);
   ("BG", "Bulgaria", [207]);
   ("BH", "Bahrain", [408]);
   ("BI", "Burundi", [609]);
   ("BJ", "Benin", [610]);
   ("BM", "Bermuda", [310]);
   ("BN", "Brunei Darussalam", [508]);
   ("BO", "Bolivia", [720]);
   ("BQ", "Bonaire, Sint Eustatius and Saba", [306]);
   ("BR", "Brazil", [710]);
   ("BS", "Bahamas", [308; 309; 311]);
   ("BT", "Bhutan", [410]);
   ("BW", "Botswana", [611]);
   ("BY", "Belarus", [206]);
   ("BZ", "Belize", [312]);
   ("CA", "Canada", [316]);
   ("CC", "Cocos Islands", [523]);
   ("CD", "Congo (the Democratic Republic of the)", [676]);
   ("CF", "Central African Republic", [612]);
   ("CG", "Congo (the)", [615]);
   ("CH", "Switzerland", [269]);
   ("CI", "Cote d'Ivoire", [619]);
   ("CK", "Cook Islands", [518]);
   ("CL", "Chile", [725]);
   ("CM", "Cameroon", [613]);
   ("CN", "China", [412; 413; 414]);
   ("CO", "Colombia", [730]);
   ("CR", "Costa Rica", [321]);
   ("CU", "Cuba", [323]);
   ("CV", "Cabo Verde", [617]);
   ("CW", "Curacao", [306]);
   ("CX", "Christmas Island", [516]);
   ("CY", "Cyprus", [209; 210; 212]);
   ("CZ", "Czechia", [270]);
   ("DE", "Germany", [211; 218]);
   ("DJ", "Djibouti", [621]);
   ("DK", "Denmark", [219; 220]);
   ("DM", "Dominica", [325]);
   ("DO", "Dominican Republic", [327]);
   ("DZ", "Algeria", [605]);
   ("EC", "Ecuador", [735]);
   ("EE", "Estonia", [276]);
   ("EG", "Egypt", [622]);
   ("ER", "Eritrea", [625]);
   ("ES", "Spain", [224; 225]);
   ("ET", "Ethiopia", [624]);
   ("FI", "Finland", [230]);
   ("FJ", "Fiji", [520]);
   ("FK", "Falkland Islands", [740]);
   ("FM", "Micronesia", [510]);
   ("FO", "Faroe Islands", [231]);
   ("FR", "France", [226; 227; 228]);
   ("GA", "Gabon", [626]);
   ("GB", "United Kingdom of Great Britain and Northern Ireland", [232; 233; 234; 235]);
   ("GD", "Grenada", [330]);
   ("GE", "Georgia", [213]);
   ("GF", "French Guiana", [745]);
   ("GH", "Ghana", [627]);
   ("GI", "Gibraltar", [236]);
   ("GL", "Greenland", [331]);
   ("GM", "Gambia", [629]);
   ("GN", "Guinea", [632]);
   ("GP", "Guadeloupe", [329]);
   ("GQ", "Equatorial Guinea", [631]);
   ("GR", "Greece", [237; 239; 240; 241]);
   ("GT", "Guatemala", [332]);
   ("GW", "Guinea-Bissau", [630]);
   ("GY", "Guyana", [750]);
   ("HK", "Hong Kong", [477]);
   ("HN", "Honduras", [334]);
   ("HR", "Croatia", [238]);
   ("HT", "Haiti", [336]);
   ("HU", "Hungary", [243]);
   ("ID", "Indonesia", [525]);
   ("IE", "Ireland", [250]);
   ("IL", "Israel", [428]);
   ("IN", "India", [419]);
   ("IQ", "Iraq", [425]);
   ("IR", "Iran", [422]);
   ("IS", "Iceland", [251]);
   ("IT", "Italy", [247]);
   ("JM", "Jamaica", [339]);
   ("JO", "Jordan", [438]);
   ("JP", "Japan", [431; 432]);
   ("KE", "Kenya", [634]);
   ("KG", "Kyrgyzstan", [451]);
   ("KH", "Cambodia", [514; 515]);
   ("KI", "Kiribati", [529]);
   ("KM", "Comoros", [616; 620]);
   ("KN", "Saint Kitts and Nevis", [341]);
   ("KP", "Korea (the Democratic People's Republic of)", [445]);
   ("KR", "Korea (the Republic of)", [440; 441]);
   ("KW", "Kuwait", [447]);
   ("KY", "Cayman Islands", [319]);
   ("KZ", "Kazakhstan", [436]);
   ("LA", "Lao People's Democratic Republic", [531]);
   ("LB", "Lebanon", [450]);
   ("LC", "Saint Lucia", [343]);
   ("LI", "Liechtenstein", [252]);
   ("LK", "Sri Lanka", [417]);
   ("LR", "Liberia", [636; 637]);
   ("LS", "Lesotho", [644]);
   ("LT", "Lithuania", [277]);
   ("LU", "Luxembourg", [253]);
   ("LV", "Latvia", [275]);
   ("LY", "Libya", [642]);
   ("MA", "Morocco", [242]);
   ("MC", "Monaco", [254]);
   ("MD", "Moldova", [214]);
   ("ME", "Montenegro", [262]);
   ("MG", "Madagascar", [647]);
   ("MH", "Marshall Islands", [538]);
   ("MK", "Republic of North Macedonia", [274]);
   ("ML", "Mali", [649]);
   ("MM", "Myanmar", [506]);
   ("MN", "Mongolia", [457]);
   ("MO", "Macao", [453]);
   ("MP", "Northern Mariana Islands", [536]);
   ("MQ", "Martinique", [347]);
   ("MR", "Mauritania", [654]);
   ("MS", "Montserrat", [348]);
   ("MT", "Malta", [215; 229; 248; 249; 256]);
   ("MU", "Mauritius", [645]);
   ("MV", "Maldives", [455]);
   ("MW", "Malawi", [655]);
   ("MX", "Mexico", [345]);
   ("MY", "Malaysia", [533]);
   ("MZ", "Mozambique", [650]);
   ("NA", "Namibia", [659]);
   ("NC", "New Caledonia", [540]);
   ("NE", "Niger", [656]);
   ("NG", "Nigeria", [657]);
   ("NI", "Nicaragua", [350]);
   ("NL", "Netherlands", [244; 245; 246]);
   ("NO", "Norway", [257; 258; 259]);
   ("NP", "Nepal", [459]);
   ("NR", "Nauru", [544]);
   ("NU", "Niue", [542]);
   ("NZ", "New Zealand", [512]);
   ("OM", "Oman", [461]);
   ("PA", "Panama", [351; 352; 353; 354; 355; 356; 357; 370; 371; 372; 373; 374]);
   ("PE", "Peru", [760]);
   ("PF", "French Polynesia", [546]);
   ("PG", "Papua New Guinea", [553]);
   ("PH", "Philippines", [548]);
   ("PK", "Pakistan", [463]);
   ("PL", "Poland", [261]);
   ("PM", "Saint Pierre and Miquelon", [361]);
   ("PN", "Pitcairn", [555]);
   ("PR", "Puerto Rico", [358]);
   ("PS", "Palestine, State of", [443]);
   ("PT", "Portugal", [204; 255; 263]);
   ("PW", "Palau", [511]);
   ("PY", "Paraguay", [755]);
   ("QA", "Qatar", [466]);
   ("RE", "Reunion", [660]);
   ("RO", "Romania", [264]);
   ("RS", "Serbia", [279]);
   ("RU", "Russian Federation", [273]);
   ("RW", "Rwanda", [661]);
   ("SA", "Saudi Arabia", [403]);
   ("SB", "Solomon Islands", [557]);
   ("SC", "Seychelles", [664]);
   ("SD", "Sudan", [662]);
   ("SE", "Sweden", [265; 266]);
   ("SG", "Singapore", [563; 564; 565; 566]);
   ("SH", "Saint Helena, Ascension and Tristan da Cunha", [608; 665]);
   ("SI", "Slovenia", [278]);
   ("SK", "Slovakia", [267]);
   ("SL", "Sierra Leone", [667]);
   ("SM", "San Marino", [268]);
   ("SN", "Senegal", [663]);
   ("SO", "Somalia", [666]);
   ("SR", "Suriname", [765]);
   ("SS", "South Sudan", [638]);
   ("ST", "Sao Tome and Principe", [668]);
   ("SV", "El Salvador", [359]);
   ("SX", "Sint Maarten", [306]);
   ("SY", "Syrian Arab Republic", [468]);
   ("SZ", "Eswatini", [669]);
   ("TC", "Turks and Caicos Islands", [364]);
   ("TD", "Chad", [670]);
   ("TF", "French Southern Territories", [501; 607; 618; 635]);
   ("TG", "Togo", [671]);
   ("TH", "Thailand", [567]);
   ("TJ", "Tajikistan", [472]);
   ("TL", "Timor-Leste", [550]);
   ("TM", "Turkmenistan", [434]);
   ("TN", "Tunisia", [672]);
   ("TO", "Tonga", [570]);
   ("TR", "Turkey", [271]);
   ("TT", "Trinidad and Tobago", [362]);
   ("TV", "Tuvalu", [572]);
   ("TW", "Taiwan", [416]);
   ("TZ", "Tanzania, United Republic of", [674; 677]);
   ("UA", "Ukraine", [272]);
   ("UG", "Uganda", [675]);
   ("US", "United States of America", [303; 338; 366; 367; 368; 369]);
   ("UY", "Uruguay", [770]);
   ("UZ", "Uzbekistan", [437]);
   ("VA", "Holy See", [208]);
   ("VC", "Saint Vincent and the Grenadines", [375; 376; 377]);
   ("VE", "Venezuela", [775]);
   ("VG", "Virgin Islands (British)", [378]);
   ("VI", "Virgin Islands (U.S.)", [379]);
   ("VN", "Viet Nam", [574]);
   ("VU", "Vanuatu", [576; 577]);
   ("WF", "Wallis and Futuna", [578]);
   ("WS", "Samoa", [561]);
   ("YE", "Yemen", [473; 475]);
   ("ZA", "South Africa", [601]);
   ("ZM", "Zambia", [678]);
   ("ZW", "Zimbabwe", [679])]%string.

(** The digits [mid] are allocated to the country [code]. *)
Definition allocated (mid : N) (code : str) : Prop :=
  exists c name mids, In (c, name, mids) flag_states /\ In mid mids /\ code = lit c.

(** The MMSI of a ship: three digits for the country, six for the ship. *)
Definition ship_mmsi (mmsi mid : N) : Prop :=
  exists ship, ship < 1000000 /\ mmsi = mid * 1000000 + ship.

(** Two upper-case letters. *)
Definition country_code (code : str) : Prop :=
  exists a b, code = [a; b] /\ 65 <= a <= 90 /\ 65 <= b <= 90.
