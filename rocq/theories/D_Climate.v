(** Generated by reading the CSV files of /repo/src/ecoengine/data/climate_data: the two lookup
    tables and the monthly inlet-water temperatures (one row per month, one column per zone).  The
    hourly dry-bulb file is not copied. *)
From Verif Require Import Prelude M_Building.
Open Scope Q_scope.

(** ZipCode_ClimateZone_Lookup.csv. *)
Definition shipped_zips : list (string * Z) :=
  [
("90001", 8); ("90002", 8); ("90003", 8); ("90004", 9); ("90005", 9); ("90006", 9);
   ("90007", 8); ("90008", 8); ("90009", 6); ("90010", 9); ("90011", 8); ("90012", 9);
   ("90013", 9); ("90014", 9); ("90015", 9); ("90016", 8); ("90017", 9); ("90018", 8);
   ("90019", 9); ("90020", 9); ("90021", 9); ("90022", 9); ("90023", 9); ("90024", 9);
   ("90025", 6); ("90026", 9); ("90027", 9); ("90028", 9); ("90029", 9); ("90030", 9);
   ("90031", 9); ("90032", 9); ("90033", 9); ("90034", 8); ("90035", 9); ("90036", 9);
   ("90037", 8); ("90038", 9); ("90039", 9); ("90040", 8); ("90041", 9); ("90042", 9);
   ("90043", 8); ("90044", 8); ("90045", 6); ("90046", 9); ("90047", 8); ("90048", 9);
   ("90049", 6); ("90050", 9); ("90051", 8); ("90052", 8); ("90053", 9); ("90054", 9);
   ("90055", 9); ("90056", 8); ("90057", 9); ("90058", 8); ("90059", 8); ("90060", 9);
   ("90061", 8); ("90062", 8); ("90063", 9); ("90064", 9); ("90065", 9); ("90066", 6);
   ("90067", 9); ("90068", 9); ("90069", 9); ("90070", 9); ("90071", 9); ("90072", 9);
   ("90073", 6); ("90074", 9); ("90075", 9); ("90076", 9); ("90077", 9); ("90078", 9);
   ("90079", 9); ("90080", 6); ("90081", 9); ("90082", 8); ("90083", 6); ("90084", 9);
   ("90086", 9); ("90087", 9); ("90088", 9); ("90089", 8); ("90091", 8); ("90093", 9);
   ("90094", 6); ("90095", 9); ("90096", 8); ("90097", 6); ("90099", 9); ("90101", 8);
   ("90102", 6); ("90103", 6); ("90174", 6); ("90185", 6); ("90201", 8); ("90202", 8);
   ("90209", 9); ("90210", 9); ("90211", 9); ("90212", 9); ("90213", 9); ("90220", 8);
   ("90221", 8); ("90222", 8); ("90223", 8); ("90224", 8); ("90230", 8); ("90231", 8);
   ("90232", 8); ("90233", 6); ("90239", 8); ("90240", 8); ("90241", 8); ("90242", 8);
   ("90245", 6); ("90247", 8); ("90248", 8); ("90249", 8); ("90250", 8); ("90251", 8);
   ("90254", 6); ("90255", 8); ("90260", 8); ("90261", 6); ("90262", 8); ("90263", 6);
   ("90264", 6); ("90265", 6); ("90266", 6); ("90267", 6); ("90270", 8); ("90272", 6);
   ("90274", 6); ("90275", 6); ("90277", 6); ("90278", 6); ("90280", 8); ("90290", 6);
   ("90291", 6); ("90292", 6); ("90293", 6); ("90294", 6); ("90295", 6); ("90296", 6);
   ("90301", 8); ("90302", 8); ("90303", 8); ("90304", 8); ("90305", 8); ("90306", 8);
   ("90307", 8); ("90308", 8); ("90309", 8); ("90310", 8); ("90311", 8); ("90312", 8);
   ("90313", 6); ("90397", 6); ("90398", 6); ("90401", 6); ("90402", 6); ("90403", 6);
   ("90404", 6); ("90405", 6); ("90406", 6); ("90407", 6); ("90408", 6); ("90409", 6);
   ("90410", 6); ("90411", 6); ("90501", 6); ("90502", 6); ("90503", 6); ("90504", 8);
   ("90505", 6); ("90506", 8); ("90507", 6); ("90508", 6); ("90509", 6); ("90510", 6);
   ("90601", 9); ("90602", 9); ("90603", 9); ("90604", 9); ("90605", 9); ("90606", 9);
   ("90607", 9); ("90608", 9); ("90609", 9); ("90610", 9); ("90612", 6); ("90620", 8);
   ("90621", 8); ("90622", 8); ("90623", 8); ("90624", 8); ("90630", 8); ("90631", 8);
   ("90632", 8); ("90633", 8); ("90637", 9); ("90638", 9); ("90639", 9); ("90640", 9);
   ("90650", 8); ("90651", 8); ("90652", 8); ("90659", 6); ("90660", 9); ("90661", 9);
   ("90662", 9); ("90665", 6); ("90670", 9); ("90671", 9); ("90680", 8); ("90701", 8);
   ("90702", 8); ("90703", 8); ("90704", 6); ("90706", 8); ("90707", 8); ("90710", 6);
   ("90711", 8); ("90712", 8); ("90713", 8); ("90714", 8); ("90715", 8); ("90716", 8);
   ("90717", 6); ("90720", 8); ("90721", 8); ("90723", 8); ("90731", 6); ("90732", 6);
   ("90733", 6); ("90734", 6); ("90740", 6); ("90742", 6); ("90743", 6); ("90744", 6);
   ("90745", 6); ("90746", 8); ("90747", 8); ("90748", 6); ("90749", 6); ("90801", 6);
   ("90802", 6); ("90803", 6); ("90804", 6); ("90805", 8); ("90806", 6); ("90807", 8);
   ("90808", 8); ("90809", 6); ("90810", 6); ("90813", 6); ("90814", 6); ("90815", 6);
   ("90822", 6); ("90831", 6); ("90832", 6); ("90833", 6); ("90834", 6); ("90835", 6);
   ("90840", 6); ("90842", 8); ("90844", 6); ("90845", 6); ("90846", 8); ("90847", 8);
   ("90848", 8); ("90853", 6); ("90888", 6); ("91001", 9); ("91003", 9); ("91006", 9);
   ("91007", 9); ("91009", 9); ("91010", 9); ("91011", 9); ("91012", 9); ("91016", 9);
   ("91017", 9); ("91020", 9); ("91021", 9); ("91023", 16); ("91024", 9); ("91025", 9);
   ("91030", 9); ("91031", 9); ("91040", 16); ("91041", 9); ("91042", 16); ("91043", 9);
   ("91046", 9); ("91050", 9); ("91051", 9); ("91066", 9); ("91077", 9); ("91101", 9);
   ("91102", 9); ("91103", 9); ("91104", 9); ("91105", 9); ("91106", 9); ("91107", 9);
   ("91108", 9); ("91109", 9); ("91110", 9); ("91114", 9); ("91115", 9); ("91116", 9);
   ("91117", 9); ("91118", 9); ("91121", 9); ("91123", 9); ("91124", 9); ("91125", 9);
   ("91126", 9); ("91129", 9); ("91131", 9); ("91175", 9); ("91182", 9); ("91184", 9);
   ("91185", 9); ("91186", 9); ("91187", 9); ("91188", 9); ("91189", 9); ("91191", 9);
   ("91201", 9); ("91202", 9); ("91203", 9); ("91204", 9); ("91205", 9); ("91206", 9);
   ("91207", 9); ("91208", 9); ("91209", 9); ("91210", 9); ("91214", 9); ("91221", 9);
   ("91222", 9); ("91224", 9); ("91225", 9); ("91226", 9); ("91301", 9); ("91302", 9);
   ("91303", 9); ("91304", 9); ("91305", 9); ("91306", 9); ("91307", 9); ("91308", 9);
   ("91309", 9); ("91310", 9); ("91311", 9); ("91312", 9); ("91313", 9); ("91316", 9);
   ("91319", 9); ("91320", 6); ("91321", 9); ("91322", 9); ("91324", 9); ("91325", 9);
   ("91326", 9); ("91327", 9); ("91328", 9); ("91329", 9); ("91330", 9); ("91331", 9);
   ("91333", 9); ("91334", 9); ("91335", 9); ("91337", 9); ("91340", 9); ("91341", 9);
   ("91342", 9); ("91343", 9); ("91344", 9); ("91345", 9); ("91346", 9); ("91350", 9);
   ("91351", 9); ("91352", 9); ("91353", 9); ("91354", 9); ("91355", 9); ("91356", 9);
   ("91357", 9); ("91358", 9); ("91359", 9); ("91360", 9); ("91361", 9); ("91362", 9);
   ("91363", 9); ("91364", 9); ("91365", 9); ("91367", 9); ("91371", 9); ("91372", 9);
   ("91376", 9); ("91377", 9); ("91380", 16); ("91381", 9); ("91382", 9); ("91383", 9);
   ("91384", 9); ("91385", 9); ("91386", 9); ("91388", 9); ("91390", 16); ("91392", 9);
   ("91393", 9); ("91394", 9); ("91395", 9); ("91396", 9); ("91399", 9); ("91401", 9);
   ("91402", 9); ("91403", 9); ("91404", 9); ("91405", 9); ("91406", 9); ("91407", 9);
   ("91408", 9); ("91409", 9); ("91410", 9); ("91411", 9); ("91412", 9); ("91413", 9);
   ("91416", 9); ("91423", 9); ("91426", 9); ("91436", 9); ("91470", 9); ("91482", 9);
   ("91495", 9); ("91496", 9); ("91497", 9); ("91499", 9); ("91501", 9); ("91502", 9);
   ("91503", 9); ("91504", 9); ("91505", 9); ("91506", 9); ("91507", 9); ("91508", 9);
   ("91510", 9); ("91521", 9); ("91522", 9); ("91523", 9); ("91526", 9); ("91601", 9);
   ("91602", 9); ("91603", 9); ("91604", 9); ("91605", 9); ("91606", 9); ("91607", 9);
   ("91608", 9); ("91609", 9); ("91610", 9); ("91611", 9); ("91612", 9); ("91614", 9);
   ("91615", 9); ("91616", 9); ("91617", 9); ("91618", 9); ("91701", 10); ("91702", 9);
   ("91706", 9); ("91708", 10); ("91709", 10); ("91710", 10); ("91711", 9); ("91714", 9);
   ("91715", 9); ("91716", 9); ("91718", 10); ("91719", 10); ("91720", 10); ("91722", 9);
   ("91723", 9); ("91724", 9); ("91729", 10); ("91730", 10); ("91731", 9); ("91732", 9);
   ("91733", 9); ("91734", 9); ("91735", 9); ("91737", 10); ("91739", 10); ("91740", 9);
   ("91741", 9); ("91743", 10); ("91744", 9); ("91745", 9); ("91746", 9); ("91747", 9);
   ("91748", 9); ("91749", 9); ("91750", 9); ("91752", 10); ("91754", 9); ("91755", 9);
   ("91756", 9); ("91758", 10); ("91759", 16); ("91760", 10); ("91761", 10); ("91762", 10);
   ("91763", 10); ("91764", 10); ("91765", 9); ("91766", 9); ("91767", 9); ("91768", 9);
   ("91769", 9); ("91770", 9); ("91771", 9); ("91772", 9); ("91773", 9); ("91775", 9);
   ("91776", 9); ("91778", 9); ("91780", 9); ("91784", 10); ("91785", 10); ("91786", 10);
   ("91788", 9); ("91789", 9); ("91790", 9); ("91791", 9); ("91792", 9); ("91793", 9);
   ("91795", 9); ("91797", 9); ("91798", 10); ("91799", 9); ("91801", 9); ("91802", 9);
   ("91803", 9); ("91804", 9); ("91841", 9); ("91896", 9); ("91899", 9); ("91901", 10);
   ("91902", 7); ("91903", 10); ("91905", 14); ("91906", 14); ("91908", 7); ("91909", 7);
   ("91910", 7); ("91911", 7); ("91912", 7); ("91913", 7); ("91914", 10); ("91915", 7);
   ("91916", 14); ("91917", 10); ("91921", 7); ("91931", 14); ("91932", 7); ("91933", 7);
   ("91934", 14); ("91935", 10); ("91941", 7); ("91942", 7); ("91943", 7); ("91944", 7);
   ("91945", 7); ("91946", 7); ("91947", 7); ("91948", 14); ("91950", 7); ("91951", 7);
   ("91962", 14); ("91963", 14); ("91976", 10); ("91977", 10); ("91978", 10); ("91979", 10);
   ("91980", 14); ("91987", 14); ("91990", 14); ("92003", 10); ("92004", 15); ("92007", 7);
   ("92008", 7); ("92009", 7); ("92013", 7); ("92014", 7); ("92018", 7); ("92019", 10);
   ("92020", 10); ("92021", 10); ("92022", 10); ("92023", 7); ("92024", 7); ("92025", 10);
   ("92026", 10); ("92027", 10); ("92028", 10); ("92029", 10); ("92030", 10); ("92033", 10);
   ("92036", 14); ("92037", 7); ("92038", 7); ("92039", 7); ("92040", 10); ("92046", 10);
   ("92049", 7); ("92051", 7); ("92052", 7); ("92054", 7); ("92055", 7); ("92056", 7);
   ("92057", 7); ("92058", 7); ("92059", 10); ("92060", 14); ("92061", 10); ("92064", 10);
   ("92065", 10); ("92066", 14); ("92067", 7); ("92068", 7); ("92069", 10); ("92070", 14);
   ("92071", 10); ("92072", 10); ("92074", 10); ("92075", 7); ("92078", 10); ("92079", 10);
   ("92081", 7); ("92082", 10); ("92083", 7); ("92084", 7); ("92085", 7); ("92086", 14);
   ("92088", 10); ("92090", 10); ("92091", 7); ("92092", 7); ("92093", 7); ("92096", 10);
   ("92101", 7); ("92102", 7); ("92103", 7); ("92104", 7); ("92105", 7); ("92106", 7);
   ("92107", 7); ("92108", 7); ("92109", 7); ("92110", 7); ("92111", 7); ("92112", 7);
   ("92113", 7); ("92114", 7); ("92115", 7); ("92116", 7); ("92117", 7); ("92118", 7);
   ("92119", 7); ("92120", 7); ("92121", 7); ("92122", 7); ("92123", 7); ("92124", 7);
   ("92126", 7); ("92127", 10); ("92128", 10); ("92129", 7); ("92130", 7); ("92131", 10);
   ("92132", 7); ("92133", 7); ("92134", 7); ("92135", 7); ("92136", 7); ("92137", 7);
   ("92138", 7); ("92139", 7); ("92140", 7); ("92142", 10); ("92143", 7); ("92145", 7);
   ("92147", 7); ("92149", 7); ("92150", 10); ("92152", 7); ("92153", 7); ("92154", 7);
   ("92155", 7); ("92158", 10); ("92159", 7); ("92160", 7); ("92161", 7); ("92162", 7);
   ("92163", 7); ("92164", 7); ("92165", 7); ("92166", 7); ("92167", 7); ("92168", 7);
   ("92169", 7); ("92170", 7); ("92171", 7); ("92172", 7); ("92173", 7); ("92174", 7);
   ("92175", 7); ("92176", 7); ("92177", 7); ("92178", 7); ("92179", 7); ("92182", 7);
   ("92184", 7); ("92186", 7); ("92187", 7); ("92190", 7); ("92191", 7); ("92192", 7);
   ("92193", 7); ("92194", 7); ("92195", 7); ("92196", 7); ("92197", 10); ("92198", 10);
   ("92199", 10); ("92201", 15); ("92202", 15); ("92203", 15); ("92210", 15); ("92211", 15);
   ("92220", 15); ("92222", 15); ("92223", 10); ("92225", 15); ("92226", 15); ("92227", 15);
   ("92230", 15); ("92231", 15); ("92232", 15); ("92233", 15); ("92234", 15); ("92235", 15);
   ("92236", 15); ("92239", 15); ("92240", 15); ("92241", 15); ("92242", 15); ("92243", 15);
   ("92244", 15); ("92249", 15); ("92250", 15); ("92251", 15); ("92252", 14); ("92253", 15);
   ("92254", 15); ("92255", 15); ("92256", 14); ("92257", 15); ("92258", 15); ("92259", 15);
   ("92260", 15); ("92261", 15); ("92262", 15); ("92263", 15); ("92264", 15); ("92266", 14);
   ("92267", 15); ("92268", 14); ("92270", 15); ("92273", 15); ("92274", 15); ("92275", 15);
   ("92276", 15); ("92277", 14); ("92278", 14); ("92280", 15); ("92281", 15); ("92282", 15);
   ("92283", 15); ("92284", 14); ("92285", 14); ("92286", 14); ("92292", 15); ("92301", 14);
   ("92304", 15); ("92305", 16); ("92307", 14); ("92308", 14); ("92309", 14); ("92310", 14);
   ("92311", 14); ("92312", 14); ("92313", 10); ("92314", 16); ("92315", 16); ("92316", 10);
   ("92317", 16); ("92318", 10); ("92320", 10); ("92321", 16); ("92322", 16); ("92323", 14);
   ("92324", 10); ("92325", 16); ("92326", 16); ("92327", 14); ("92328", 14); ("92329", 14);
   ("92332", 14); ("92333", 16); ("92334", 10); ("92335", 10); ("92336", 10); ("92337", 10);
   ("92338", 14); ("92339", 16); ("92340", 14); ("92341", 16); ("92342", 14); ("92345", 14);
   ("92346", 10); ("92347", 14); ("92350", 10); ("92352", 16); ("92354", 10); ("92356", 14);
   ("92357", 10); ("92358", 16); ("92359", 16); ("92363", 15); ("92364", 14); ("92365", 14);
   ("92366", 14); ("92368", 14); ("92369", 10); ("92371", 14); ("92372", 14); ("92373", 10);
   ("92374", 10); ("92375", 10); ("92376", 10); ("92377", 10); ("92378", 16); ("92382", 16);
   ("92384", 14); ("92385", 16); ("92386", 16); ("92389", 14); ("92391", 16); ("92392", 14);
   ("92393", 14); ("92394", 14); ("92397", 16); ("92398", 14); ("92399", 10); ("92401", 10);
   ("92402", 16); ("92403", 10); ("92404", 16); ("92405", 10); ("92406", 10); ("92407", 10);
   ("92408", 10); ("92410", 10); ("92411", 10); ("92412", 10); ("92413", 10); ("92414", 10);
   ("92415", 10); ("92416", 10); ("92418", 10); ("92420", 10); ("92423", 10); ("92424", 10);
   ("92427", 10); ("92501", 10); ("92502", 10); ("92503", 10); ("92504", 10); ("92505", 10);
   ("92506", 10); ("92507", 10); ("92508", 10); ("92509", 10); ("92513", 10); ("92514", 10);
   ("92515", 10); ("92516", 10); ("92517", 10); ("92518", 10); ("92519", 10); ("92521", 10);
   ("92522", 10); ("92530", 10); ("92531", 10); ("92532", 10); ("92536", 15); ("92539", 16);
   ("92543", 10); ("92544", 10); ("92545", 10); ("92546", 10); ("92548", 10); ("92549", 16);
   ("92551", 10); ("92552", 10); ("92553", 10); ("92554", 10); ("92555", 10); ("92556", 10);
   ("92557", 10); ("92561", 16); ("92562", 10); ("92563", 10); ("92564", 10); ("92567", 10);
   ("92570", 10); ("92571", 10); ("92572", 10); ("92581", 10); ("92582", 10); ("92583", 10);
   ("92584", 10); ("92585", 10); ("92586", 10); ("92587", 10); ("92589", 10); ("92590", 10);
   ("92591", 10); ("92592", 10); ("92593", 10); ("92595", 10); ("92596", 10); ("92599", 10);
   ("92602", 8); ("92603", 8); ("92604", 8); ("92605", 6); ("92606", 8); ("92607", 6);
   ("92610", 8); ("92612", 8); ("92614", 8); ("92615", 6); ("92616", 6); ("92618", 8);
   ("92619", 8); ("92620", 8); ("92623", 8); ("92624", 6); ("92625", 6); ("92626", 6);
   ("92627", 6); ("92628", 6); ("92629", 6); ("92630", 8); ("92646", 6); ("92647", 6);
   ("92648", 6); ("92649", 6); ("92650", 8); ("92651", 6); ("92652", 6); ("92653", 6);
   ("92654", 8); ("92655", 6); ("92656", 6); ("92657", 6); ("92658", 6); ("92659", 6);
   ("92660", 6); ("92661", 6); ("92662", 6); ("92663", 6); ("92672", 6); ("92673", 6);
   ("92674", 6); ("92675", 6); ("92676", 8); ("92677", 6); ("92678", 8); ("92679", 8);
   ("92683", 6); ("92684", 6); ("92685", 6); ("92688", 8); ("92690", 6); ("92691", 8);
   ("92692", 8); ("92693", 6); ("92694", 8); ("92697", 6); ("92698", 8); ("92701", 8);
   ("92702", 8); ("92703", 8); ("92704", 8); ("92705", 8); ("92706", 8); ("92707", 8);
   ("92708", 6); ("92709", 8); ("92710", 8); ("92711", 8); ("92712", 8); ("92728", 6);
   ("92735", 8); ("92780", 8); ("92781", 8); ("92782", 8); ("92799", 6); ("92801", 8);
   ("92802", 8); ("92803", 8); ("92804", 8); ("92805", 8); ("92806", 8); ("92807", 8);
   ("92808", 8); ("92811", 8); ("92812", 8); ("92814", 8); ("92815", 8); ("92816", 8);
   ("92817", 8); ("92821", 8); ("92822", 8); ("92823", 8); ("92825", 8); ("92831", 8);
   ("92832", 8); ("92833", 8); ("92834", 8); ("92835", 8); ("92836", 8); ("92837", 8);
   ("92838", 8); ("92840", 8); ("92841", 8); ("92842", 8); ("92843", 8); ("92844", 6);
   ("92845", 8); ("92846", 8); ("92850", 8); ("92856", 8); ("92857", 8); ("92859", 8);
   ("92860", 10); ("92861", 8); ("92862", 8); ("92863", 8); ("92864", 8); ("92865", 8);
   ("92866", 8); ("92867", 8); ("92868", 8); ("92869", 8); ("92870", 8); ("92871", 8);
   ("92877", 10); ("92878", 10); ("92879", 10); ("92880", 10); ("92881", 10); ("92882", 10);
   ("92883", 10); ("92885", 8); ("92886", 8); ("92887", 8); ("92899", 8); ("93001", 6);
   ("93002", 6); ("93003", 6); ("93004", 6); ("93005", 6); ("93006", 6); ("93007", 6);
   ("93009", 6); ("93010", 6); ("93011", 6); ("93012", 6); ("93013", 6); ("93014", 6);
   ("93015", 9); ("93016", 9); ("93020", 9); ("93021", 9); ("93022", 9); ("93023", 9);
   ("93024", 9); ("93030", 6); ("93031", 6); ("93032", 6); ("93033", 6); ("93034", 6);
   ("93035", 6); ("93040", 9); ("93041", 6); ("93042", 6); ("93043", 6); ("93044", 6);
   ("93060", 9); ("93061", 9); ("93062", 9); ("93063", 9); ("93064", 9); ("93065", 9);
   ("93066", 9); ("93067", 6); ("93093", 9); ("93094", 9); ("93099", 9); ("93101", 6);
   ("93102", 6); ("93103", 6); ("93105", 6); ("93106", 6); ("93107", 6); ("93108", 6);
   ("93109", 6); ("93110", 6); ("93111", 6); ("93116", 6); ("93117", 6); ("93118", 6);
   ("93120", 6); ("93121", 6); ("93130", 5); ("93140", 6); ("93150", 6); ("93160", 6);
   ("93190", 6); ("93199", 6); ("93201", 13); ("93202", 13); ("93203", 13); ("93204", 13);
   ("93205", 16); ("93206", 13); ("93207", 13); ("93208", 16); ("93210", 13); ("93212", 13);
   ("93215", 13); ("93216", 13); ("93218", 13); ("93219", 13); ("93220", 13); ("93221", 13);
   ("93222", 16); ("93223", 13); ("93224", 13); ("93225", 16); ("93226", 16); ("93227", 13);
   ("93230", 13); ("93231", 13); ("93232", 13); ("93234", 13); ("93235", 13); ("93237", 13);
   ("93238", 16); ("93239", 13); ("93240", 16); ("93241", 13); ("93242", 13); ("93243", 16);
   ("93244", 13); ("93245", 13); ("93246", 13); ("93247", 13); ("93249", 13); ("93250", 13);
   ("93251", 13); ("93252", 13); ("93254", 4); ("93255", 16); ("93256", 13); ("93257", 13);
   ("93258", 13); ("93260", 13); ("93261", 13); ("93262", 16); ("93263", 13); ("93265", 16);
   ("93266", 13); ("93267", 13); ("93268", 13); ("93270", 13); ("93271", 13); ("93272", 13);
   ("93274", 13); ("93275", 13); ("93276", 13); ("93277", 13); ("93278", 13); ("93279", 13);
   ("93280", 13); ("93282", 13); ("93283", 16); ("93285", 16); ("93286", 13); ("93287", 13);
   ("93291", 13); ("93292", 13); ("93301", 13); ("93302", 13); ("93303", 13); ("93304", 13);
   ("93305", 13); ("93306", 13); ("93307", 13); ("93308", 13); ("93309", 13); ("93311", 13);
   ("93312", 13); ("93313", 13); ("93314", 13); ("93380", 13); ("93381", 13); ("93382", 13);
   ("93383", 13); ("93384", 13); ("93385", 13); ("93386", 13); ("93387", 13); ("93388", 13);
   ("93389", 13); ("93390", 13); ("93401", 5); ("93402", 5); ("93403", 5); ("93405", 5);
   ("93406", 5); ("93407", 5); ("93408", 5); ("93409", 5); ("93410", 5); ("93412", 5);
   ("93420", 5); ("93421", 5); ("93422", 4); ("93423", 4); ("93424", 5); ("93426", 4);
   ("93427", 5); ("93428", 5); ("93429", 5); ("93430", 5); ("93432", 4); ("93433", 5);
   ("93434", 5); ("93435", 5); ("93436", 5); ("93437", 5); ("93438", 5); ("93440", 5);
   ("93441", 5); ("93442", 5); ("93443", 5); ("93444", 5); ("93445", 5); ("93446", 4);
   ("93447", 4); ("93448", 5); ("93449", 5); ("93450", 4); ("93451", 4); ("93452", 5);
   ("93453", 4); ("93454", 5); ("93455", 5); ("93456", 5); ("93457", 5); ("93458", 5);
   ("93460", 5); ("93461", 4); ("93463", 5); ("93464", 5); ("93465", 4); ("93483", 5);
   ("93501", 14); ("93502", 14); ("93504", 14); ("93505", 14); ("93510", 14); ("93512", 16);
   ("93513", 16); ("93514", 16); ("93515", 16); ("93516", 14); ("93517", 16); ("93518", 16);
   ("93519", 14); ("93522", 16); ("93523", 14); ("93524", 14); ("93526", 16); ("93527", 16);
   ("93528", 14); ("93529", 16); ("93530", 16); ("93531", 16); ("93532", 14); ("93534", 14);
   ("93535", 14); ("93536", 14); ("93539", 14); ("93541", 16); ("93542", 16); ("93543", 14);
   ("93544", 14); ("93545", 16); ("93546", 16); ("93549", 16); ("93550", 14); ("93551", 14);
   ("93552", 14); ("93553", 14); ("93554", 14); ("93555", 14); ("93556", 14); ("93558", 14);
   ("93560", 14); ("93561", 16); ("93562", 14); ("93563", 16); ("93581", 16); ("93584", 14);
   ("93586", 14); ("93590", 14); ("93591", 14); ("93592", 14); ("93596", 14); ("93599", 14);
   ("93601", 13); ("93602", 16); ("93603", 13); ("93604", 16); ("93605", 16); ("93606", 13);
   ("93607", 13); ("93608", 13); ("93609", 13); ("93610", 13); ("93611", 13); ("93612", 13);
   ("93613", 13); ("93614", 13); ("93615", 13); ("93616", 13); ("93618", 13); ("93619", 13);
   ("93620", 12); ("93621", 13); ("93622", 13); ("93623", 16); ("93624", 13); ("93625", 13);
   ("93626", 13); ("93627", 13); ("93628", 16); ("93630", 13); ("93631", 13); ("93633", 16);
   ("93634", 16); ("93635", 12); ("93636", 13); ("93637", 13); ("93638", 13); ("93639", 13);
   ("93640", 13); ("93641", 13); ("93642", 16); ("93643", 16); ("93644", 13); ("93645", 13);
   ("93646", 13); ("93647", 13); ("93648", 13); ("93649", 13); ("93650", 13); ("93651", 13);
   ("93652", 13); ("93653", 13); ("93654", 13); ("93656", 13); ("93657", 13); ("93660", 13);
   ("93661", 12); ("93662", 13); ("93664", 16); ("93665", 12); ("93666", 13); ("93667", 13);
   ("93668", 13); ("93669", 16); ("93670", 13); ("93673", 13); ("93675", 13); ("93701", 13);
   ("93702", 13); ("93703", 13); ("93704", 13); ("93705", 13); ("93706", 13); ("93707", 13);
   ("93708", 13); ("93709", 13); ("93710", 13); ("93711", 13); ("93712", 13); ("93714", 13);
   ("93715", 13); ("93716", 13); ("93717", 13); ("93718", 13); ("93720", 13); ("93721", 13);
   ("93722", 13); ("93723", 13); ("93724", 13); ("93725", 13); ("93726", 13); ("93727", 13);
   ("93728", 13); ("93729", 13); ("93730", 13); ("93737", 13); ("93740", 13); ("93741", 13);
   ("93744", 13); ("93745", 13); ("93747", 13); ("93750", 13); ("93755", 13); ("93759", 13);
   ("93760", 13); ("93761", 13); ("93762", 13); ("93764", 13); ("93765", 13); ("93771", 13);
   ("93772", 13); ("93773", 13); ("93774", 13); ("93775", 13); ("93776", 13); ("93777", 13);
   ("93778", 13); ("93779", 13); ("93780", 13); ("93782", 13); ("93784", 13); ("93786", 13);
   ("93790", 13); ("93791", 13); ("93792", 13); ("93793", 13); ("93794", 13); ("93844", 13);
   ("93888", 13); ("93901", 3); ("93902", 3); ("93905", 3); ("93906", 3); ("93907", 3);
   ("93908", 3); ("93912", 3); ("93915", 3); ("93920", 3); ("93921", 3); ("93922", 3);
   ("93923", 3); ("93924", 3); ("93925", 3); ("93926", 3); ("93927", 4); ("93928", 4);
   ("93930", 4); ("93932", 4); ("93933", 3); ("93940", 3); ("93942", 3); ("93943", 3);
   ("93944", 3); ("93950", 3); ("93953", 3); ("93954", 4); ("93955", 3); ("93960", 3);
   ("93962", 3); ("94002", 3); ("94003", 3); ("94005", 3); ("94010", 3); ("94011", 3);
   ("94012", 3); ("94014", 3); ("94015", 3); ("94016", 3); ("94017", 3); ("94018", 3);
   ("94019", 3); ("94020", 3); ("94021", 3); ("94022", 4); ("94023", 4); ("94024", 4);
   ("94025", 3); ("94026", 3); ("94027", 3); ("94028", 3); ("94029", 3); ("94030", 3);
   ("94031", 3); ("94035", 4); ("94037", 3); ("94038", 3); ("94039", 4); ("94040", 4);
   ("94041", 4); ("94042", 4); ("94043", 4); ("94044", 3); ("94045", 3); ("94059", 3);
   ("94060", 3); ("94061", 3); ("94062", 3); ("94063", 3); ("94064", 3); ("94065", 3);
   ("94066", 3); ("94067", 3); ("94070", 3); ("94071", 3); ("94074", 3); ("94080", 3);
   ("94083", 3); ("94085", 4); ("94086", 4); ("94087", 4); ("94088", 3); ("94089", 4);
   ("94090", 4); ("94096", 3); ("94098", 3); ("94099", 3); ("94101", 3); ("94102", 3);
   ("94103", 3); ("94104", 3); ("94105", 3); ("94106", 3); ("94107", 3); ("94108", 3);
   ("94109", 3); ("94110", 3); ("94111", 3); ("94112", 3); ("94114", 3); ("94115", 3);
   ("94116", 3); ("94117", 3); ("94118", 3); ("94119", 3); ("94120", 3); ("94121", 3);
   ("94122", 3); ("94123", 3); ("94124", 3); ("94125", 3); ("94126", 3); ("94127", 3);
   ("94128", 3); ("94129", 3); ("94130", 3); ("94131", 3); ("94132", 3); ("94133", 3);
   ("94134", 3); ("94135", 3); ("94136", 3); ("94137", 3); ("94138", 3); ("94139", 3);
   ("94140", 3); ("94141", 3); ("94142", 3); ("94143", 3); ("94144", 3); ("94145", 3);
   ("94146", 3); ("94147", 3); ("94150", 3); ("94151", 3); ("94152", 3); ("94153", 3);
   ("94154", 3); ("94155", 3); ("94156", 3); ("94157", 3); ("94158", 3); ("94159", 3);
   ("94160", 3); ("94161", 3); ("94162", 3); ("94163", 3); ("94164", 3); ("94165", 3);
   ("94166", 3); ("94167", 3); ("94168", 3); ("94169", 3); ("94170", 3); ("94171", 3);
   ("94172", 3); ("94175", 3); ("94177", 3); ("94188", 3); ("94203", 12); ("94204", 12);
   ("94205", 12); ("94206", 12); ("94207", 12); ("94208", 12); ("94209", 12); ("94211", 12);
   ("94229", 12); ("94230", 12); ("94232", 12); ("94234", 12); ("94235", 12); ("94236", 12);
   ("94237", 12); ("94239", 12); ("94240", 12); ("94243", 12); ("94244", 12); ("94245", 12);
   ("94246", 12); ("94247", 12); ("94248", 12); ("94249", 12); ("94250", 12); ("94252", 12);
   ("94253", 12); ("94254", 12); ("94256", 12); ("94257", 12); ("94258", 12); ("94259", 12);
   ("94261", 12); ("94262", 12); ("94263", 12); ("94267", 12); ("94268", 12); ("94269", 12);
   ("94271", 12); ("94273", 12); ("94274", 12); ("94277", 12); ("94278", 12); ("94279", 12);
   ("94280", 12); ("94282", 12); ("94283", 12); ("94284", 12); ("94285", 12); ("94286", 12);
   ("94287", 12); ("94288", 12); ("94289", 12); ("94290", 12); ("94291", 12); ("94293", 12);
   ("94294", 12); ("94295", 12); ("94296", 12); ("94297", 12); ("94298", 12); ("94299", 12);
   ("94301", 4); ("94302", 4); ("94303", 4); ("94304", 4); ("94305", 4); ("94306", 4);
   ("94307", 4); ("94308", 4); ("94309", 4); ("94310", 4); ("94401", 3); ("94402", 3);
   ("94403", 3); ("94404", 3); ("94405", 3); ("94406", 3); ("94407", 3); ("94408", 3);
   ("94409", 3); ("94497", 3); ("94501", 3); ("94502", 3); ("94503", 2); ("94505", 12);
   ("94506", 12); ("94507", 12); ("94508", 2); ("94509", 12); ("94510", 12); ("94511", 12);
   ("94512", 12); ("94513", 12); ("94514", 12); ("94515", 2); ("94516", 12); ("94517", 12);
   ("94518", 12); ("94519", 12); ("94520", 12); ("94521", 12); ("94522", 12); ("94523", 12);
   ("94524", 12); ("94525", 12); ("94526", 12); ("94527", 12); ("94528", 12); ("94529", 12);
   ("94530", 3); ("94531", 12); ("94533", 12); ("94534", 12); ("94535", 12); ("94536", 3);
   ("94537", 3); ("94538", 3); ("94539", 3); ("94540", 3); ("94541", 3); ("94542", 3);
   ("94543", 3); ("94544", 3); ("94545", 3); ("94546", 3); ("94547", 3); ("94548", 12);
   ("94549", 12); ("94550", 12); ("94551", 12); ("94552", 3); ("94553", 12); ("94555", 3);
   ("94556", 12); ("94557", 3); ("94558", 2); ("94559", 2); ("94560", 3); ("94561", 12);
   ("94562", 2); ("94563", 12); ("94564", 3); ("94565", 12); ("94566", 12); ("94567", 2);
   ("94568", 12); ("94569", 12); ("94570", 12); ("94571", 12); ("94572", 3); ("94573", 2);
   ("94574", 2); ("94575", 12); ("94576", 2); ("94577", 3); ("94578", 3); ("94579", 3);
   ("94580", 3); ("94581", 2); ("94582", 12); ("94583", 12); ("94585", 12); ("94586", 12);
   ("94587", 3); ("94588", 12); ("94589", 3); ("94590", 3); ("94591", 12); ("94592", 3);
   ("94595", 12); ("94596", 12); ("94597", 12); ("94598", 12); ("94599", 2); ("94601", 3);
   ("94602", 3); ("94603", 3); ("94604", 3); ("94605", 3); ("94606", 3); ("94607", 3);
   ("94608", 3); ("94609", 3); ("94610", 3); ("94611", 3); ("94612", 3); ("94613", 3);
   ("94614", 3); ("94615", 3); ("94617", 3); ("94618", 3); ("94619", 3); ("94620", 3);
   ("94621", 3); ("94623", 3); ("94624", 3); ("94625", 3); ("94626", 3); ("94627", 3);
   ("94643", 3); ("94649", 3); ("94659", 3); ("94660", 3); ("94661", 3); ("94662", 3);
   ("94666", 3); ("94701", 3); ("94702", 3); ("94703", 3); ("94704", 3); ("94705", 3);
   ("94706", 3); ("94707", 3); ("94708", 3); ("94709", 3); ("94710", 3); ("94712", 3);
   ("94720", 3); ("94801", 3); ("94802", 3); ("94803", 3); ("94804", 3); ("94805", 3);
   ("94806", 3); ("94807", 3); ("94808", 3); ("94820", 3); ("94850", 3); ("94901", 2);
   ("94903", 2); ("94904", 2); ("94912", 2); ("94913", 2); ("94914", 2); ("94915", 2);
   ("94920", 3); ("94922", 1); ("94923", 1); ("94924", 3); ("94925", 3); ("94926", 2);
   ("94927", 2); ("94928", 2); ("94929", 3); ("94930", 2); ("94931", 2); ("94933", 3);
   ("94937", 3); ("94938", 3); ("94939", 2); ("94940", 3); ("94941", 3); ("94942", 3);
   ("94945", 2); ("94946", 2); ("94947", 2); ("94948", 2); ("94949", 2); ("94950", 3);
   ("94951", 2); ("94952", 2); ("94953", 2); ("94954", 2); ("94955", 2); ("94956", 3);
   ("94957", 2); ("94960", 2); ("94963", 2); ("94964", 2); ("94965", 3); ("94966", 3);
   ("94970", 3); ("94971", 3); ("94972", 2); ("94973", 2); ("94974", 2); ("94975", 2);
   ("94976", 3); ("94977", 3); ("94978", 2); ("94979", 2); ("94998", 2); ("94999", 2);
   ("95001", 3); ("95002", 4); ("95003", 3); ("95004", 4); ("95005", 3); ("95006", 3);
   ("95007", 3); ("95008", 4); ("95009", 4); ("95010", 3); ("95011", 4); ("95012", 3);
   ("95013", 4); ("95014", 4); ("95015", 4); ("95017", 3); ("95018", 3); ("95019", 3);
   ("95020", 4); ("95021", 4); ("95023", 4); ("95024", 4); ("95026", 3); ("95030", 4);
   ("95031", 4); ("95032", 4); ("95033", 4); ("95035", 4); ("95036", 4); ("95037", 4);
   ("95038", 4); ("95039", 3); ("95041", 3); ("95042", 4); ("95043", 4); ("95044", 3);
   ("95045", 4); ("95046", 4); ("95050", 4); ("95051", 4); ("95052", 4); ("95053", 4);
   ("95054", 4); ("95055", 4); ("95056", 4); ("95060", 3); ("95061", 3); ("95062", 3);
   ("95063", 3); ("95064", 3); ("95065", 3); ("95066", 3); ("95067", 3); ("95070", 4);
   ("95071", 4); ("95073", 3); ("95075", 4); ("95076", 3); ("95077", 3); ("95101", 4);
   ("95102", 4); ("95103", 4); ("95106", 4); ("95108", 4); ("95109", 4); ("95110", 4);
   ("95111", 4); ("95112", 4); ("95113", 4); ("95114", 4); ("95115", 4); ("95116", 4);
   ("95117", 4); ("95118", 4); ("95119", 4); ("95120", 4); ("95121", 4); ("95122", 4);
   ("95123", 4); ("95124", 4); ("95125", 4); ("95126", 4); ("95127", 4); ("95128", 4);
   ("95129", 4); ("95130", 4); ("95131", 4); ("95132", 4); ("95133", 4); ("95134", 4);
   ("95135", 4); ("95136", 4); ("95137", 4); ("95138", 4); ("95139", 4); ("95140", 4);
   ("95141", 4); ("95142", 4); ("95148", 4); ("95150", 4); ("95151", 4); ("95152", 4);
   ("95153", 4); ("95154", 4); ("95155", 4); ("95156", 4); ("95157", 4); ("95158", 4);
   ("95159", 4); ("95160", 4); ("95161", 4); ("95164", 4); ("95170", 4); ("95171", 4);
   ("95172", 4); ("95173", 4); ("95190", 4); ("95191", 4); ("95192", 4); ("95193", 4);
   ("95194", 4); ("95196", 4); ("95201", 12); ("95202", 12); ("95203", 12); ("95204", 12);
   ("95205", 12); ("95206", 12); ("95207", 12); ("95208", 12); ("95209", 12); ("95210", 12);
   ("95211", 12); ("95212", 12); ("95213", 12); ("95215", 12); ("95219", 12); ("95220", 12);
   ("95221", 12); ("95222", 12); ("95223", 16); ("95224", 16); ("95225", 12); ("95226", 12);
   ("95227", 12); ("95228", 12); ("95229", 12); ("95230", 12); ("95231", 12); ("95232", 12);
   ("95233", 16); ("95234", 12); ("95236", 12); ("95237", 12); ("95240", 12); ("95241", 12);
   ("95242", 12); ("95245", 12); ("95246", 12); ("95247", 12); ("95248", 12); ("95249", 12);
   ("95250", 12); ("95251", 12); ("95252", 12); ("95253", 12); ("95254", 12); ("95255", 12);
   ("95257", 12); ("95258", 12); ("95267", 12); ("95269", 12); ("95290", 12); ("95296", 12);
   ("95297", 12); ("95298", 12); ("95301", 12); ("95303", 12); ("95304", 12); ("95305", 12);
   ("95306", 12); ("95307", 12); ("95309", 12); ("95310", 12); ("95311", 12); ("95312", 12);
   ("95313", 12); ("95314", 16); ("95315", 12); ("95316", 12); ("95317", 12); ("95318", 16);
   ("95319", 12); ("95320", 12); ("95321", 12); ("95322", 12); ("95323", 12); ("95324", 12);
   ("95325", 12); ("95326", 12); ("95327", 12); ("95328", 12); ("95329", 12); ("95330", 12);
   ("95333", 12); ("95334", 12); ("95335", 16); ("95336", 12); ("95337", 12); ("95338", 12);
   ("95340", 12); ("95341", 12); ("95342", 12); ("95343", 12); ("95344", 12); ("95345", 12);
   ("95346", 16); ("95347", 12); ("95348", 12); ("95350", 12); ("95351", 12); ("95352", 12);
   ("95353", 12); ("95354", 12); ("95355", 12); ("95356", 12); ("95357", 12); ("95358", 12);
   ("95360", 12); ("95361", 12); ("95363", 12); ("95364", 16); ("95365", 12); ("95366", 12);
   ("95367", 12); ("95368", 12); ("95369", 12); ("95370", 12); ("95372", 12); ("95373", 12);
   ("95374", 12); ("95375", 16); ("95376", 12); ("95377", 12); ("95378", 12); ("95379", 12);
   ("95380", 12); ("95381", 12); ("95382", 12); ("95383", 12); ("95385", 12); ("95386", 12);
   ("95387", 12); ("95388", 12); ("95389", 16); ("95390", 12); ("95391", 12); ("95397", 12);
   ("95401", 2); ("95402", 2); ("95403", 2); ("95404", 2); ("95405", 2); ("95406", 2);
   ("95407", 2); ("95408", 2); ("95409", 2); ("95410", 1); ("95412", 1); ("95415", 2);
   ("95416", 2); ("95417", 1); ("95418", 2); ("95419", 2); ("95420", 1); ("95421", 1);
   ("95422", 2); ("95423", 2); ("95424", 2); ("95425", 2); ("95426", 2); ("95427", 1);
   ("95428", 2); ("95429", 2); ("95430", 1); ("95431", 2); ("95432", 1); ("95433", 2);
   ("95435", 2); ("95436", 2); ("95437", 1); ("95439", 2); ("95441", 2); ("95442", 2);
   ("95443", 2); ("95444", 2); ("95445", 1); ("95446", 2); ("95448", 2); ("95449", 2);
   ("95450", 1); ("95451", 2); ("95452", 2); ("95453", 2); ("95454", 2); ("95456", 1);
   ("95457", 2); ("95458", 2); ("95459", 1); ("95460", 1); ("95461", 2); ("95462", 1);
   ("95463", 2); ("95464", 2); ("95465", 1); ("95466", 2); ("95467", 2); ("95468", 1);
   ("95469", 2); ("95470", 2); ("95471", 2); ("95472", 2); ("95473", 2); ("95476", 2);
   ("95480", 1); ("95481", 2); ("95482", 2); ("95485", 2); ("95486", 1); ("95487", 2);
   ("95488", 1); ("95490", 2); ("95492", 2); ("95493", 2); ("95494", 2); ("95497", 1);
   ("95501", 1); ("95502", 1); ("95503", 1); ("95511", 2); ("95514", 2); ("95518", 1);
   ("95519", 1); ("95521", 1); ("95524", 1); ("95525", 1); ("95526", 2); ("95527", 16);
   ("95528", 1); ("95531", 1); ("95532", 1); ("95534", 1); ("95536", 1); ("95537", 1);
   ("95538", 1); ("95540", 1); ("95542", 2); ("95543", 16); ("95545", 1); ("95546", 2);
   ("95547", 1); ("95548", 1); ("95549", 1); ("95550", 2); ("95551", 1); ("95552", 2);
   ("95553", 1); ("95554", 2); ("95555", 1); ("95556", 2); ("95558", 1); ("95559", 2);
   ("95560", 2); ("95562", 1); ("95563", 16); ("95564", 1); ("95565", 1); ("95567", 1);
   ("95568", 16); ("95569", 2); ("95570", 1); ("95571", 1); ("95573", 2); ("95585", 1);
   ("95587", 2); ("95589", 1); ("95595", 2); ("95601", 12); ("95602", 11); ("95603", 11);
   ("95604", 11); ("95605", 12); ("95606", 12); ("95607", 12); ("95608", 12); ("95609", 12);
   ("95610", 12); ("95611", 12); ("95612", 12); ("95613", 12); ("95614", 12); ("95615", 12);
   ("95616", 12); ("95617", 12); ("95618", 12); ("95619", 12); ("95620", 12); ("95621", 12);
   ("95623", 12); ("95624", 12); ("95625", 12); ("95626", 12); ("95627", 12); ("95628", 12);
   ("95629", 12); ("95630", 12); ("95631", 16); ("95632", 12); ("95633", 12); ("95634", 12);
   ("95635", 12); ("95636", 16); ("95637", 12); ("95638", 12); ("95639", 12); ("95640", 12);
   ("95641", 12); ("95642", 12); ("95644", 12); ("95645", 11); ("95646", 16); ("95648", 11);
   ("95650", 11); ("95651", 12); ("95652", 12); ("95653", 12); ("95654", 12); ("95655", 12);
   ("95656", 12); ("95658", 11); ("95659", 11); ("95660", 12); ("95661", 11); ("95662", 12);
   ("95663", 11); ("95664", 12); ("95665", 12); ("95666", 16); ("95667", 12); ("95668", 11);
   ("95669", 12); ("95670", 12); ("95671", 12); ("95672", 12); ("95673", 12); ("95674", 11);
   ("95675", 12); ("95676", 11); ("95677", 11); ("95678", 11); ("95679", 12); ("95680", 12);
   ("95681", 11); ("95682", 12); ("95683", 12); ("95684", 12); ("95685", 12); ("95686", 12);
   ("95687", 12); ("95688", 12); ("95689", 12); ("95690", 12); ("95691", 12); ("95692", 11);
   ("95693", 12); ("95694", 12); ("95695", 12); ("95696", 12); ("95697", 12); ("95698", 12);
   ("95699", 12); ("95701", 16); ("95703", 11); ("95709", 12); ("95712", 11); ("95713", 11);
   ("95714", 16); ("95715", 16); ("95717", 16); ("95720", 16); ("95721", 16); ("95722", 11);
   ("95724", 16); ("95726", 16); ("95728", 16); ("95735", 16); ("95736", 11); ("95741", 12);
   ("95742", 12); ("95743", 12); ("95746", 11); ("95747", 11); ("95757", 12); ("95758", 12);
   ("95759", 12); ("95762", 12); ("95763", 12); ("95765", 11); ("95776", 12); ("95798", 12);
   ("95799", 12); ("95811", 12); ("95812", 12); ("95813", 12); ("95814", 12); ("95815", 12);
   ("95816", 12); ("95817", 12); ("95818", 12); ("95819", 12); ("95820", 12); ("95821", 12);
   ("95822", 12); ("95823", 12); ("95824", 12); ("95825", 12); ("95826", 12); ("95827", 12);
   ("95828", 12); ("95829", 12); ("95830", 12); ("95831", 12); ("95832", 12); ("95833", 12);
   ("95834", 12); ("95835", 12); ("95836", 12); ("95837", 12); ("95838", 12); ("95840", 12);
   ("95841", 12); ("95842", 12); ("95843", 12); ("95851", 12); ("95852", 12); ("95853", 12);
   ("95857", 12); ("95860", 12); ("95864", 12); ("95865", 12); ("95866", 12); ("95867", 12);
   ("95873", 12); ("95887", 12); ("95894", 12); ("95899", 12); ("95901", 11); ("95903", 11);
   ("95910", 16); ("95912", 11); ("95913", 11); ("95914", 11); ("95915", 16); ("95916", 16);
   ("95917", 11); ("95918", 11); ("95919", 11); ("95920", 11); ("95922", 16); ("95923", 16);
   ("95924", 11); ("95925", 16); ("95926", 11); ("95927", 11); ("95928", 11); ("95929", 11);
   ("95930", 16); ("95931", 11); ("95932", 11); ("95934", 16); ("95935", 11); ("95936", 16);
   ("95937", 12); ("95938", 11); ("95939", 11); ("95940", 11); ("95941", 16); ("95942", 16);
   ("95943", 11); ("95944", 16); ("95945", 11); ("95946", 11); ("95947", 16); ("95948", 11);
   ("95949", 11); ("95950", 11); ("95951", 11); ("95953", 11); ("95954", 16); ("95955", 11);
   ("95956", 16); ("95957", 11); ("95958", 11); ("95959", 11); ("95960", 16); ("95961", 11);
   ("95962", 11); ("95963", 11); ("95965", 11); ("95966", 11); ("95967", 11); ("95968", 11);
   ("95969", 11); ("95970", 11); ("95971", 16); ("95972", 11); ("95973", 11); ("95974", 11);
   ("95975", 11); ("95976", 11); ("95977", 11); ("95978", 16); ("95979", 11); ("95980", 16);
   ("95981", 16); ("95982", 11); ("95983", 16); ("95984", 16); ("95986", 16); ("95987", 11);
   ("95988", 11); ("95991", 11); ("95992", 11); ("95993", 11); ("96001", 11); ("96002", 11);
   ("96003", 11); ("96006", 16); ("96007", 11); ("96008", 11); ("96009", 16); ("96010", 16);
   ("96011", 16); ("96013", 16); ("96014", 16); ("96015", 16); ("96016", 16); ("96017", 16);
   ("96019", 11); ("96020", 16); ("96021", 11); ("96022", 11); ("96023", 16); ("96024", 16);
   ("96025", 16); ("96027", 16); ("96028", 16); ("96029", 11); ("96031", 16); ("96032", 16);
   ("96033", 11); ("96034", 16); ("96035", 11); ("96037", 16); ("96038", 16); ("96039", 16);
   ("96040", 16); ("96041", 16); ("96044", 16); ("96046", 16); ("96047", 11); ("96048", 16);
   ("96049", 16); ("96050", 16); ("96051", 11); ("96052", 16); ("96053", 16); ("96054", 16);
   ("96055", 11); ("96056", 16); ("96057", 16); ("96058", 16); ("96059", 11); ("96061", 16);
   ("96062", 11); ("96063", 16); ("96064", 16); ("96065", 16); ("96067", 16); ("96068", 16);
   ("96069", 11); ("96070", 11); ("96071", 16); ("96073", 11); ("96074", 11); ("96075", 16);
   ("96076", 16); ("96078", 11); ("96079", 11); ("96080", 11); ("96084", 11); ("96085", 16);
   ("96086", 16); ("96087", 11); ("96088", 11); ("96089", 11); ("96090", 11); ("96091", 16);
   ("96092", 11); ("96093", 16); ("96094", 16); ("96095", 11); ("96096", 11); ("96097", 16);
   ("96099", 11); ("96101", 16); ("96103", 16); ("96104", 16); ("96105", 16); ("96106", 16);
   ("96107", 16); ("96108", 16); ("96109", 16); ("96110", 16); ("96111", 16); ("96112", 16);
   ("96113", 16); ("96114", 16); ("96115", 16); ("96116", 16); ("96117", 16); ("96118", 16);
   ("96119", 16); ("96120", 16); ("96121", 16); ("96122", 16); ("96123", 16); ("96124", 16);
   ("96125", 16); ("96126", 16); ("96127", 16); ("96128", 16); ("96129", 16); ("96130", 16);
   ("96132", 16); ("96133", 16); ("96134", 16); ("96135", 16); ("96136", 16); ("96137", 16);
   ("96140", 16); ("96141", 16); ("96142", 16); ("96143", 16); ("96145", 16); ("96146", 16);
   ("96148", 16); ("96150", 16); ("96151", 16); ("96152", 16); ("96154", 16); ("96155", 16);
   ("96156", 16); ("96157", 16); ("96158", 16); ("96160", 16); ("96161", 16); ("96162", 16);
   ("83805", 70); ("98121", 35); ("98103", 35); ("98101", 35); ("98112", 35); ("98122", 35);
   ("98104", 35); ("98109", 35); ("97205", 61); ("97232", 61); ("97266", 61); ("83211", 76);
   ("98405", 40); ("98366", 21)
]%string%Z.

(** WeatherStation_ClimateZone_Lookup.csv. *)
Definition shipped_stations : list (string * Z) :=
  [
("ID - Boise Air Terminal", 67);
   ("ID - Burley Muni AP", 68);
   ("ID - Caldwell AWOS", 69);
   ("ID - Coeur dAlene AWOS", 70);
   ("ID - Hailey-Sun Valley AP", 71);
   ("ID - Idaho Falls-Fanning Field", 72);
   ("ID - Lewiston-Nez Perce County AP", 73);
   ("ID - Malad City AP", 74);
   ("ID - Mountain Home AFB", 75);
   ("ID - Pocatello Muni AP", 76);
   ("ID - Salmon-Lemhi AWOS", 77);
   ("ID - Soda Springs-Tigert AP", 78);
   ("ID - Twin Falls-Magic Valley Rgnl AP-Joslin Field", 79);
   ("MT - Billings-Logan Intl AP", 80);
   ("MT - Bozeman-Gallatin Field", 81);
   ("MT - Butte-Bert Mooney AP", 82);
   ("MT - Cut Bank Muni AP", 83);
   ("MT - Glasgow Intl AP", 84);
   ("MT - Glendive AWOS", 85);
   ("MT - Great Falls Intl AP", 86);
   ("MT - Havre City-County AP", 87);
   ("MT - Helena Rgnl AP", 88);
   ("MT - Kalispell-Glacier Park Intl AP", 89);
   ("MT - Lewistown Muni AP", 90);
   ("MT - Livingston-Mission Field", 91);
   ("MT - Miles City Muni AP", 92);
   ("MT - Missoula Intl AP", 93);
   ("MT - Sidney-Richland Muni AP", 94);
   ("MT - Wolf Point Intl AP", 95);
   ("OR - Astoria Rgnl AP", 48);
   ("OR - Aurora State AP", 49);
   ("OR - Baker Muni AP", 50);
   ("OR - Burns Muni AP", 51);
   ("OR - Corvallis Muni AP", 52);
   ("OR - Eugene-Mahlon Sweet AP", 53);
   ("OR - Klamath Falls Intl AP", 54);
   ("OR - La Grande Muni AP", 55);
   ("OR - Lakeview AWOS", 56);
   ("OR - Medford-Rogue Valley Intl AP", 57);
   ("OR - North Bend Muni AP", 58);
   ("OR - Pendleton-Eastern Oregon Rgnl AP", 59);
   ("OR - Portland Hillsboro AP", 60);
   ("OR - Portland Intl AP", 61);
   ("OR - Portland-Troutdale AP", 62);
   ("OR - Redmond-Roberts Field", 63);
   ("OR - Roseburg Rgnl AP", 64);
   ("OR - Salem-McNary Field", 65);
   ("OR - Sexton Summit", 66);
   ("WA - Bellingham Intl Ap", 20);
   ("WA - Bremerton National AP", 21);
   ("WA - Ephrata Muni AP", 22);
   ("WA - Fairchild AFB", 23);
   ("WA - Fort Lewis-Gray AAF", 24);
   ("WA - Hanford", 25);
   ("WA - Hoquiam AP", 26);
   ("WA - Kelso AP", 27);
   ("WA - Moses Lake-Grant County AP", 28);
   ("WA - Olympia AP", 29);
   ("WA - Pasco-Tri Cities AP", 30);
   ("WA - Port Angeles-William R Fairchild Intl AP", 31);
   ("WA - Pullman-Moscow Rgnl AP", 32);
   ("WA - Quillayute State AP", 33);
   ("WA - Renton Muni AP", 34);
   ("WA - Seattle-Boeing Field", 35);
   ("WA - Seattle-Tacoma Intl AP", 36);
   ("WA - Snohomish County AP", 37);
   ("WA - Spokane-Felts Field", 38);
   ("WA - Stampede Pass", 39);
   ("WA - Tacoma McChord AFB", 41);
   ("WA - Tacoma Narrows AP", 40);
   ("WA - The Dalles Muni AP", 42);
   ("WA - Toledo-Winlock-Ed Carlson Mem AP", 43);
   ("WA - Walla Walla City-County AP", 44);
   ("WA - Wenatchee-Pangborn Mem AP", 45);
   ("WA - Whidbey Island NAS", 46);
   ("WA - Yakima Air Terminal-McAllister Field", 47);
   ("Vancouver BC", 96)
]%string%Z.

(** InletWaterTemperatures_ByClimateZone.csv. *)
Definition shipped_inlet : csv_rows :=
  [
[(12527 # 250); (12689 # 250); (26467 # 500); (26881 # 500); (26143 # 500); (29653 # 500); (14741 # 250); (29077 # 500);
    (27997 # 500); (16163 # 250); (12347 # 250); (1331 # 25); (12869 # 250); (7753 # 125); (7879 # 125); (29761 # 500);
    (183 # 5); (469 # 10); (154 # 5); (511 # 10); (233 # 5); (91 # 2); (389 # 10); 44;
    51; (481 # 10); (234 # 5); (229 # 5); (249 # 5); 45; (457 # 10); (393 # 10);
    (467 # 10); (499 # 10); (499 # 10); (103 # 2); (459 # 10); (417 # 10); 33; (244 # 5);
    49; (459 # 10); (479 # 10); (263 # 5); (208 # 5); (229 # 5); (203 # 5); (244 # 5);
    50; 45; (369 # 10); (479 # 10); (257 # 5); (83 # 2); 41; (261 # 5);
    (91 # 2); (259 # 5); (93 # 2); (487 # 10); (479 # 10); 56; (427 # 10); (493 # 10);
    (471 # 10); (263 # 5); (91 # 2); (217 # 5); (204 # 5); (411 # 10); (349 # 10); (373 # 10);
    (231 # 5); (194 # 5); (246 # 5); 40; (77 # 2); (417 # 10); 42; (206 # 5);
    (208 # 5); (343 # 10); (75 # 2); (176 # 5); (477 # 10); (373 # 10); (483 # 10); (192 # 5);
    (173 # 5); (188 # 5); (407 # 10); (75 # 2); (79 # 2); 31; (229 # 5); (227 # 5)];
   [(24307 # 500); (12329 # 250); (1358 # 25); (26197 # 500); (1313 # 25); (7312 # 125); (5927 # 100); (29239 # 500);
    (28249 # 500); (30823 # 500); (2509 # 50); (12779 # 250); (13067 # 250); (13859 # 250); (31903 # 500); (6529 # 125);
    (67 # 2); (451 # 10); 27; (241 # 5); (224 # 5); (209 # 5); (351 # 10); (218 # 5);
    (226 # 5); (467 # 10); (232 # 5); (85 # 2); 47; (222 # 5); (221 # 5); (411 # 10);
    (227 # 5); (481 # 10); (481 # 10); (243 # 5); (469 # 10); (193 # 5); (65 # 2); (471 # 10);
    (459 # 10); (477 # 10); (447 # 10); (479 # 10); (409 # 10); (228 # 5); (399 # 10); (237 # 5);
    48; (202 # 5); (181 # 5); (246 # 5); (483 # 10); (194 # 5); (427 # 10); (479 # 10);
    (471 # 10); (501 # 10); (218 # 5); (467 # 10); (237 # 5); (264 # 5); (401 # 10); (489 # 10);
    (467 # 10); (244 # 5); 42; (201 # 5); (401 # 10); 38; (341 # 10); (67 # 2);
    43; (381 # 10); (219 # 5); (363 # 10); 35; (183 # 5); (231 # 5); (188 # 5);
    36; 31; (173 # 5); (61 # 2); (203 # 5); (167 # 5); 42; 35;
    34; (69 # 2); (187 # 5); (329 # 10); (363 # 10); (259 # 10); (389 # 10); (226 # 5)];
   [(5989 # 125); (12401 # 250); (14057 # 250); (26341 # 500); (26791 # 500); (29329 # 500); (7582 # 125); (14993 # 250);
    (29383 # 500); (31129 # 500); (2689 # 50); (12887 # 250); (1117 # 20); (26143 # 500); (8419 # 125); (23461 # 500);
    (341 # 10); (91 # 2); (139 # 5); (229 # 5); (222 # 5); 41; (343 # 10); (224 # 5);
    (209 # 5); (232 # 5); (237 # 5); (209 # 5); (226 # 5); (461 # 10); (439 # 10); (222 # 5);
    (451 # 10); (477 # 10); (477 # 10); (234 # 5); (487 # 10); (379 # 10); (339 # 10); (234 # 5);
    (439 # 10); (511 # 10); (427 # 10); (451 # 10); (214 # 5); (463 # 10); (209 # 5); (471 # 10);
    (238 # 5); (188 # 5); 38; (103 # 2); (232 # 5); (381 # 10); (229 # 5); (87 # 2);
    (501 # 10); (491 # 10); (429 # 10); (463 # 10); (243 # 5); (501 # 10); (79 # 2); 50;
    (239 # 5); (228 # 5); (413 # 10); (79 # 2); 42; (373 # 10); (363 # 10); (327 # 10);
    (423 # 10); 40; (81 # 2); (71 # 2); (343 # 10); (67 # 2); (509 # 10); (184 # 5);
    (65 # 2); (303 # 10); (339 # 10); (59 # 2); (173 # 5); (163 # 5); (183 # 5); (343 # 10);
    (179 # 5); (339 # 10); (367 # 10); (319 # 10); (178 # 5); (124 # 5); (166 # 5); 46];
   [(23947 # 500); (6349 # 125); (14453 # 250); (6727 # 125); (5477 # 100); (14831 # 250); (31093 # 500); (30823 # 500);
    (7663 # 125); (32371 # 500); (28897 # 500); (6664 # 125); (14957 # 250); (26089 # 500); (8914 # 125); (4451 # 100);
    (183 # 5); (469 # 10); (309 # 10); (222 # 5); 45; (421 # 10); (177 # 5); (232 # 5);
    (407 # 10); (234 # 5); (489 # 10); (214 # 5); (223 # 5); (97 # 2); (443 # 10); (237 # 5);
    (91 # 2); (241 # 5); (241 # 5); (463 # 10); (101 # 2); (389 # 10); 36; (473 # 10);
    (433 # 10); (271 # 5); (421 # 10); (221 # 5); (228 # 5); (237 # 5); (443 # 10); (95 # 2);
    (241 # 5); (367 # 10); (81 # 2); (537 # 10); (229 # 5); 39; (243 # 5); (203 # 5);
    53; (244 # 5); (219 # 5); (469 # 10); (503 # 10); (243 # 5); (403 # 10); (103 # 2);
    (99 # 2); (439 # 10); (423 # 10); (202 # 5); (224 # 5); (191 # 5); (198 # 5); (339 # 10);
    (433 # 10); (427 # 10); (79 # 2); (183 # 5); (353 # 10); (163 # 5); (272 # 5); (379 # 10);
    (63 # 2); (313 # 10); (174 # 5); (309 # 10); (157 # 5); (337 # 10); (337 # 10); (353 # 10);
    (383 # 10); (174 # 5); (377 # 10); (333 # 10); (183 # 5); (263 # 10); 30; (231 # 5)];
   [(4901 # 100); (6844 # 125); (15101 # 250); (14381 # 250); (28663 # 500); (15389 # 250); (16379 # 250); (32623 # 500);
    (16703 # 250); (9121 # 125); (33253 # 500); (29563 # 500); (17117 # 250); (286 # 5); (1997 # 25); (11177 # 250);
    (449 # 10); (517 # 10); (413 # 10); (218 # 5); (477 # 10); (477 # 10); (411 # 10); (253 # 5);
    (427 # 10); (244 # 5); (527 # 10); (239 # 5); (457 # 10); (547 # 10); (233 # 5); (531 # 10);
    (95 # 2); (509 # 10); (509 # 10); (473 # 10); (268 # 5); (218 # 5); (206 # 5); (497 # 10);
    (89 # 2); (601 # 10); (433 # 10); (459 # 10); (105 # 2); (501 # 10); (509 # 10); (248 # 5);
    (256 # 5); (192 # 5); (467 # 10); (289 # 5); (469 # 10); (216 # 5); 54; (186 # 5);
    (291 # 5); (247 # 5); (483 # 10); (499 # 10); (547 # 10); (477 # 10); (443 # 10); (111 # 2);
    (537 # 10); (214 # 5); (238 # 5); (226 # 5); (259 # 5); (429 # 10); (479 # 10); (79 # 2);
    (481 # 10); (99 # 2); (207 # 5); (211 # 5); (203 # 5); (172 # 5); 59; (433 # 10);
    (67 # 2); (181 # 5); (393 # 10); 38; (147 # 5); (198 # 5); 32; (202 # 5);
    (224 # 5); (79 # 2); (213 # 5); (401 # 10); (207 # 5); (339 # 10); (281 # 10); (242 # 5)];
   [(25333 # 500); (14579 # 250); (15353 # 250); (6089 # 100); (14741 # 250); (6359 # 100); (33829 # 500); (1351 # 20);
    (35161 # 500); (10048 # 125); (18017 # 250); (32191 # 500); (36997 # 500); (6449 # 100); (10669 # 125); (6133 # 125);
    (262 # 5); (561 # 10); (507 # 10); (224 # 5); (253 # 5); (537 # 10); (236 # 5); (537 # 10);
    (95 # 2); 51; (111 # 2); (531 # 10); (481 # 10); (593 # 10); (491 # 10); 56;
    (497 # 10); (269 # 5); (539 # 10); (497 # 10); (276 # 5); (243 # 5); (226 # 5); (262 # 5);
    (471 # 10); (631 # 10); 46; (497 # 10); (577 # 10); (521 # 10); (559 # 10); (519 # 10);
    (109 # 2); (211 # 5); (103 # 2); (599 # 10); (99 # 2); (239 # 5); (284 # 5); (187 # 5);
    (304 # 5); (254 # 5); (531 # 10); (531 # 10); (579 # 10); 49; (243 # 5); (117 # 2);
    (569 # 10); (443 # 10); (266 # 5); (252 # 5); (571 # 10); 48; (541 # 10); (228 # 5);
    (533 # 10); (273 # 5); (459 # 10); (241 # 5); (231 # 5); (193 # 5); (299 # 5); 49;
    (191 # 5); (208 # 5); (441 # 10); (228 # 5); (321 # 10); 46; (172 # 5); (459 # 10);
    (248 # 5); (89 # 2); (479 # 10); (95 # 2); (93 # 2); (211 # 5); (307 # 10); (501 # 10)];
   [(5243 # 100); (1529 # 25); (30607 # 500); (6359 # 100); (7474 # 125); (8149 # 125); (1718 # 25); (34351 # 500);
    (36043 # 500); (21581 # 250); (1871 # 25); (34297 # 500); (19187 # 250); (1808 # 25); (8807 # 100); (27799 # 500);
    (292 # 5); (119 # 2); (291 # 5); 47; (533 # 10); (296 # 5); (264 # 5); (557 # 10);
    (533 # 10); 53; (573 # 10); 58; 51; (623 # 10); (257 # 5); (567 # 10);
    (517 # 10); (113 # 2); (283 # 5); (527 # 10); (278 # 5); (266 # 5); (477 # 10); (274 # 5);
    (503 # 10); (319 # 5); (493 # 10); (273 # 5); 61; (267 # 5); (591 # 10); 54;
    (115 # 2); (469 # 10); (109 # 2); (302 # 5); (527 # 10); (519 # 10); (287 # 5); (199 # 5);
    (307 # 5); (105 # 2); (115 # 2); 56; 60; (103 # 2); (105 # 2); (302 # 5);
    (589 # 10); (236 # 5); (292 # 5); (551 # 10); (121 # 2); (263 # 5); (581 # 10); (256 # 5);
    (581 # 10); (289 # 5); (257 # 5); (537 # 10); (257 # 5); (219 # 5); (579 # 10); (543 # 10);
    44; (93 # 2); (243 # 5); (105 # 2); (188 # 5); (517 # 10); (393 # 10); 51;
    (264 # 5); 49; (527 # 10); (271 # 5); (256 # 5); (497 # 10); (361 # 10); (259 # 5)];
   [(26971 # 500); (6269 # 100); (29941 # 500); (6503 # 100); (14903 # 250); (8257 # 125); (17117 # 250); (1369 # 20);
    (7169 # 100); (8951 # 100); (18557 # 250); (35431 # 500); (9517 # 125); (39517 # 500); (43729 # 500); (31453 # 500);
    (308 # 5); (307 # 5); (311 # 5); (499 # 10); (276 # 5); 63; (284 # 5); (281 # 5);
    (591 # 10); (272 # 5); (289 # 5); (123 # 2); (539 # 10); (631 # 10); 53; (551 # 10);
    (266 # 5); (292 # 5); (292 # 5); (278 # 5); (547 # 10); (282 # 5); (483 # 10); (113 # 2);
    (107 # 2); (621 # 10); (105 # 2); (593 # 10); (309 # 5); (537 # 10); (299 # 5); (277 # 5);
    (119 # 2); (103 # 2); (553 # 10); (296 # 5); (559 # 10); (274 # 5); (559 # 10); (441 # 10);
    (599 # 10); (541 # 10); (303 # 5); (581 # 10); (121 # 2); (547 # 10); (276 # 5); (609 # 10);
    (297 # 5); 51; 62; (292 # 5); (613 # 10); (559 # 10); (591 # 10); (551 # 10);
    (123 # 2); (587 # 10); (569 # 10); (288 # 5); 55; (489 # 10); (269 # 5); 58;
    (497 # 10); (499 # 10); (258 # 5); (287 # 5); (447 # 10); (279 # 5); (228 # 5); (109 # 2);
    (107 # 2); (523 # 10); (561 # 10); (589 # 10); (109 # 2); (549 # 10); (429 # 10); (537 # 10)];
   [(27367 # 500); (31183 # 500); (7222 # 125); (16181 # 250); (7303 # 125); (16469 # 250); (16739 # 250); (33397 # 500);
    (6917 # 100); (44413 # 500); (281 # 4); (8797 # 125); (9022 # 125); (20627 # 250); (10444 # 125); (34387 # 500);
    (609 # 10); 61; (307 # 5); (263 # 5); (557 # 10); (639 # 10); (577 # 10); 55;
    (629 # 10); (547 # 10); (567 # 10); (623 # 10); (559 # 10); (306 # 5); (267 # 5); (257 # 5);
    (107 # 2); (294 # 5); (589 # 10); (288 # 5); (527 # 10); (286 # 5); (467 # 10); (569 # 10);
    (557 # 10); (292 # 5); (547 # 10); (125 # 2); (597 # 10); (529 # 10); (579 # 10); (279 # 5);
    60; (273 # 5); (533 # 10); (283 # 5); 58; (111 # 2); (262 # 5); (489 # 10);
    (283 # 5); (553 # 10); (613 # 10); (293 # 5); (296 # 5); (577 # 10); (559 # 10); (597 # 10);
    (291 # 5); (109 # 2); (314 # 5); (296 # 5); (296 # 5); (283 # 5); (283 # 5); 56;
    (311 # 5); (283 # 5); (121 # 2); (117 # 2); (559 # 10); (262 # 5); (97 # 2); (589 # 10);
    (268 # 5); (254 # 5); (262 # 5); (117 # 2); (513 # 10); (567 # 10); (103 # 2); (553 # 10);
    (258 # 5); 53; (569 # 10); 60; (553 # 10); (281 # 5); (493 # 10); (533 # 10)];
   [(5459 # 100); (7546 # 125); (27763 # 500); (31417 # 500); (2833 # 50); (32371 # 500); (16163 # 250); (6431 # 100);
    (16343 # 250); (21167 # 250); (3211 # 50); (8428 # 125); (33109 # 500); (4093 # 50); (7763 # 100); (35773 # 500);
    (567 # 10); (293 # 5); (561 # 10); (543 # 10); (273 # 5); (617 # 10); (111 # 2); (262 # 5);
    (639 # 10); (539 # 10); (543 # 10); (302 # 5); (282 # 5); (287 # 5); (105 # 2); 47;
    (527 # 10); (577 # 10); (289 # 5); (581 # 10); (251 # 5); (277 # 5); (87 # 2); 56;
    (281 # 5); (269 # 5); (553 # 10); (316 # 5); (111 # 2); (256 # 5); (269 # 5); 55;
    (589 # 10); (553 # 10); (99 # 2); (267 # 5); (117 # 2); (539 # 10); (241 # 5); (264 # 5);
    (263 # 5); (111 # 2); (298 # 5); (287 # 5); (283 # 5); (119 # 2); (543 # 10); (286 # 5);
    (278 # 5); (284 # 5); (304 # 5); (573 # 10); (549 # 10); (274 # 5); (103 # 2); (269 # 5);
    (302 # 5); (262 # 5); (307 # 5); (563 # 10); (269 # 5); (266 # 5); (219 # 5); (284 # 5);
    (109 # 2); (244 # 5); (253 # 5); (279 # 5); (277 # 5); (272 # 5); (276 # 5); (533 # 10);
    (238 # 5); (256 # 5); 55; (287 # 5); (267 # 5); (266 # 5); (533 # 10); (517 # 10)];
   [(6691 # 125); (5711 # 100); (13409 # 250); (29887 # 500); (27331 # 500); (31453 # 500); (3103 # 50); (30751 # 500);
    (7636 # 125); (38941 # 500); (5747 # 100); (31309 # 500); (7438 # 125); (38617 # 500); (7097 # 100); (17657 # 250);
    (499 # 10); (273 # 5); (238 # 5); (273 # 5); (523 # 10); 57; (253 # 5); (491 # 10);
    (617 # 10); (261 # 5); (513 # 10); (561 # 10); (276 # 5); (105 # 2); (101 # 2); (427 # 10);
    (509 # 10); (277 # 5); (111 # 2); (569 # 10); (239 # 5); (257 # 5); (393 # 10); (539 # 10);
    55; (247 # 5); 54; (307 # 5); 50; (491 # 10); (243 # 5); (266 # 5);
    (563 # 10); (107 # 2); (89 # 2); (252 # 5); (573 # 10); (251 # 5); (221 # 5); 55;
    (243 # 5); (549 # 10); (557 # 10); (549 # 10); (531 # 10); (599 # 10); (509 # 10); (541 # 10);
    (261 # 5); (286 # 5); (563 # 10); (266 # 5); (493 # 10); (254 # 5); (449 # 10); (489 # 10);
    (281 # 5); 47; (593 # 10); (103 # 2); (493 # 10); (256 # 5); (203 # 5); (261 # 5);
    (523 # 10); (89 # 2); (234 # 5); (497 # 10); (281 # 5); (247 # 5); (559 # 10); (489 # 10);
    (212 # 5); (236 # 5); (254 # 5); (103 # 2); (493 # 10); (467 # 10); (541 # 10); (489 # 10)];
   [(25963 # 500); (6709 # 125); (527 # 10); (14129 # 250); (6637 # 125); (7618 # 125); (30013 # 500); (7411 # 125);
    (28861 # 500); (35359 # 500); (26071 # 500); (28771 # 500); (13553 # 250); (35053 # 500); (16433 # 250); (16577 # 250);
    (427 # 10); (252 # 5); (77 # 2); (107 # 2); (247 # 5); (256 # 5); (223 # 5); (461 # 10);
    57; (501 # 10); (243 # 5); (254 # 5); (529 # 10); 48; (481 # 10); 40;
    (244 # 5); (263 # 5); (263 # 5); (273 # 5); (463 # 10); (93 # 2); (178 # 5); (513 # 10);
    (262 # 5); (93 # 2); (257 # 5); (288 # 5); 45; (236 # 5); (219 # 5); 51;
    (531 # 10); (249 # 5); (399 # 10); (242 # 5); (547 # 10); (229 # 5); (208 # 5); (274 # 5);
    (461 # 10); (107 # 2); (511 # 10); (517 # 10); 50; (293 # 5); (234 # 5); (256 # 5);
    (246 # 5); (557 # 10); (254 # 5); (241 # 5); (221 # 5); (459 # 10); (389 # 10); 43;
    (511 # 10); (421 # 10); (549 # 10); (457 # 10); (219 # 5); (471 # 10); (399 # 10); (233 # 5);
    (477 # 10); (393 # 10); (421 # 10); (212 # 5); (267 # 5); (433 # 10); (267 # 5); (218 # 5);
    (189 # 5); (423 # 10); (228 # 5); (222 # 5); (443 # 10); (387 # 10); (257 # 5); (233 # 5)]
].
