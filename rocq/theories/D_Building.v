(** Generated from /repo/src/ecoengine/data: load_shapes/*.json ('Stream', 'Stream_Avg') and
    climate_data/WeatherStation_ClimateZone_Lookup.csv.  Decimals are transcribed exactly.  The
    8760-value 'Annual_Normalized' list of multi_family.json is not transcribed. *)
From Verif Require Import Prelude M_Building.

(** data/load_shapes/<type>.json: type, 'Stream', 'Stream_Avg'. *)
Definition shipped_shapes : list (string * (list Q * list Q)) :=
  [
   ("apartment"%string,
    ([11682243 # 250000000; 44392523 # 1000000000; 18691589 # 500000000; 817757 # 25000000; 817757 # 25000000; 817757 # 25000000; 817757 # 25000000; 18691589 # 500000000; 49065421 # 1000000000; 11682243 # 100000000; 11682243 # 250000000; 35046729 # 1000000000; 35046729 # 1000000000; 19859813 # 500000000; 5140187 # 200000000; 11682243 # 500000000; 28037383 # 1000000000; 11682243 # 500000000; 18691589 # 1000000000; 1682243 # 40000000; 11682243 # 250000000; 72429907 # 1000000000; 28037383 # 500000000; 44392523 # 1000000000],
     [503663 # 12500000; 6959707 # 200000000; 29304029 # 1000000000; 27472527 # 1000000000; 10989011 # 500000000; 10989011 # 500000000; 10989011 # 500000000; 10989011 # 500000000; 5952381 # 250000000; 36630037 # 1000000000; 1510989 # 25000000; 1058837 # 15625000; 71428571 # 1000000000; 31135531 # 500000000; 3003663 # 40000000; 10989011 # 250000000; 22893773 # 500000000; 36630037 # 1000000000; 22893773 # 500000000; 21062271 # 500000000; 21062271 # 500000000; 21062271 # 500000000; 21062271 # 500000000; 21062271 # 500000000]));
   ("elementary_school"%string,
    ([0 # 1; 0 # 1; 0 # 1; 0 # 1; 0 # 1; 0 # 1; 0 # 1; 0 # 1; 4625347 # 250000000; 20814061 # 250000000; 7585569 # 200000000; 1480111 # 40000000; 138760407 # 250000000; 20814061 # 125000000; 46253469 # 500000000; 4625347 # 500000000; 0 # 1; 0 # 1; 0 # 1; 0 # 1; 0 # 1; 0 # 1; 0 # 1; 0 # 1],
     [0 # 1; 0 # 1; 0 # 1; 0 # 1; 0 # 1; 0 # 1; 0 # 1; 0 # 1; 0 # 1; 14925373 # 1000000000; 14925373 # 500000000; 298507463 # 1000000000; 98880597 # 250000000; 78358209 # 500000000; 26119403 # 250000000; 0 # 1; 0 # 1; 0 # 1; 0 # 1; 0 # 1; 0 # 1; 0 # 1; 0 # 1; 0 # 1]));
   ("food_service_a"%string,
    ([0 # 1; 0 # 1; 0 # 1; 0 # 1; 0 # 1; 0 # 1; 0 # 1; 0 # 1; 11783901 # 1000000000; 137781 # 4000000; 10197607 # 250000000; 22661349 # 500000000; 49854967 # 1000000000; 57106599 # 1000000000; 55293691 # 500000000; 49854967 # 1000000000; 33720087 # 1000000000; 25380711 # 1000000000; 10197607 # 125000000; 126903553 # 1000000000; 135968093 # 1000000000; 39430747 # 500000000; 18129079 # 250000000; 22661349 # 500000000],
     [0 # 1; 0 # 1; 0 # 1; 0 # 1; 0 # 1; 0 # 1; 0 # 1; 0 # 1; 20876827 # 1000000000; 41753653 # 1000000000; 52192067 # 1000000000; 52192067 # 1000000000; 57411273 # 1000000000; 16440501 # 250000000; 32098121 # 250000000; 41753653 # 1000000000; 36534447 # 1000000000; 7045929 # 250000000; 2348643 # 25000000; 782881 # 5000000; 22703549 # 250000000; 83507307 # 1000000000; 5480167 # 125000000; 782881 # 125000000]));
   ("food_service_b"%string,
    ([11927481 # 250000000; 98600509 # 1000000000; 22264631 # 200000000; 95419847 # 1000000000; 34987277 # 1000000000; 34987277 # 1000000000; 3975827 # 500000000; 1590331 # 500000000; 1908397 # 200000000; 3975827 # 500000000; 206743 # 10000000; 19083969 # 1000000000; 9860051 # 500000000; 3975827 # 100000000; 22264631 # 500000000; 34987277 # 1000000000; 206743 # 10000000; 3975827 # 100000000; 3975827 # 100000000; 11832061 # 200000000; 24650127 # 500000000; 10178117 # 200000000; 11832061 # 200000000; 10178117 # 200000000],
     [27173913 # 500000000; 17857143 # 500000000; 97826087 # 1000000000; 52795031 # 1000000000; 12810559 # 250000000; 12810559 # 250000000; 4037267 # 200000000; 62111801 # 1000000000; 0 # 1; 34161491 # 1000000000; 34161491 # 1000000000; 31055901 # 1000000000; 2173913 # 100000000; 46583851 # 1000000000; 52795031 # 1000000000; 46583851 # 1000000000; 27950311 # 1000000000; 931677 # 40000000; 9704969 # 250000000; 46583851 # 1000000000; 59006211 # 1000000000; 40372671 # 1000000000; 37267081 # 1000000000; 34161491 # 1000000000]));
   ("junior_high"%string,
    ([382263 # 125000000; 382263 # 62500000; 382263 # 62500000; 382263 # 62500000; 382263 # 62500000; 382263 # 62500000; 382263 # 62500000; 382263 # 62500000; 382263 # 62500000; 1146789 # 25000000; 3440367 # 62500000; 116207951 # 1000000000; 382263 # 6250000; 107033639 # 1000000000; 116207951 # 1000000000; 76452599 # 1000000000; 382263 # 25000000; 382263 # 12500000; 152905199 # 500000000; 382263 # 62500000; 382263 # 125000000; 382263 # 125000000; 382263 # 125000000; 382263 # 125000000],
     [0 # 1; 5333333 # 1000000000; 5333333 # 1000000000; 5333333 # 1000000000; 5333333 # 1000000000; 5333333 # 1000000000; 5333333 # 1000000000; 5333333 # 1000000000; 5333333 # 1000000000; 4 # 125; 58666667 # 1000000000; 6 # 25; 3 # 25; 14 # 125; 58666667 # 1000000000; 146666667 # 1000000000; 66666667 # 1000000000; 5333333 # 1000000000; 106666667 # 1000000000; 2666667 # 1000000000; 0 # 1; 2666667 # 1000000000; 2666667 # 1000000000; 2666667 # 1000000000]));
   ("mens_dorm"%string,
    ([100529101 # 1000000000; 33068783 # 500000000; 79365079 # 1000000000; 13227513 # 500000000; 0 # 1; 0 # 1; 1058201 # 200000000; 13227513 # 500000000; 63492063 # 1000000000; 1984127 # 50000000; 10582011 # 1000000000; 21164021 # 1000000000; 13227513 # 500000000; 13227513 # 500000000; 1058201 # 200000000; 1984127 # 125000000; 37037037 # 1000000000; 21164021 # 500000000; 8994709 # 100000000; 10582011 # 1000000000; 1984127 # 125000000; 10582011 # 1000000000; 37037037 # 500000000; 103174603 # 500000000],
     [36016949 # 500000000; 38135593 # 1000000000; 16949153 # 1000000000; 21186441 # 1000000000; 529661 # 62500000; 529661 # 62500000; 0 # 1; 16949153 # 1000000000; 38135593 # 1000000000; 84745763 # 1000000000; 6779661 # 100000000; 25423729 # 500000000; 6779661 # 200000000; 6779661 # 200000000; 29661017 # 500000000; 25423729 # 500000000; 31779661 # 500000000; 25423729 # 500000000; 3220339 # 40000000; 25423729 # 500000000; 42372881 # 1000000000; 25423729 # 1000000000; 42372881 # 1000000000; 42372881 # 1000000000]));
   ("motel"%string,
    ([15957447 # 1000000000; 0 # 1; 15957447 # 500000000; 5319149 # 1000000000; 0 # 1; 0 # 1; 29255319 # 500000000; 292553191 # 1000000000; 63829787 # 500000000; 15957447 # 500000000; 2393617 # 50000000; 37234043 # 1000000000; 5319149 # 250000000; 5319149 # 200000000; 15957447 # 1000000000; 15957447 # 500000000; 5319149 # 200000000; 5319149 # 500000000; 5319149 # 250000000; 5319149 # 200000000; 106382979 # 1000000000; 5319149 # 250000000; 5319149 # 250000000; 5319149 # 250000000],
     [4672897 # 1000000000; 4672897 # 500000000; 18691589 # 1000000000; 4672897 # 1000000000; 4672897 # 1000000000; 4672897 # 1000000000; 28037383 # 1000000000; 14953271 # 100000000; 14953271 # 100000000; 1682243 # 40000000; 3796729 # 62500000; 18691589 # 1000000000; 28037383 # 1000000000; 112149533 # 1000000000; 1682243 # 40000000; 18691589 # 1000000000; 4672897 # 500000000; 3504673 # 250000000; 28037383 # 1000000000; 51401869 # 500000000; 28037383 # 1000000000; 11682243 # 250000000; 11682243 # 250000000; 28037383 # 1000000000]));
   ("multi_family"%string,
    ([118731 # 7812500; 6079027 # 1000000000; 1519757 # 500000000; 1519757 # 500000000; 1519757 # 500000000; 9118541 # 1000000000; 37993921 # 500000000; 37993921 # 250000000; 100303951 # 1000000000; 82066869 # 1000000000; 5319149 # 250000000; 24316109 # 1000000000; 5319149 # 250000000; 24316109 # 1000000000; 2431611 # 200000000; 6079027 # 1000000000; 9118541 # 1000000000; 9118541 # 250000000; 27355623 # 500000000; 9118541 # 125000000; 88145897 # 1000000000; 9118541 # 100000000; 63829787 # 1000000000; 24316109 # 1000000000],
     [10435997 # 500000000; 968149 # 100000000; 7585863 # 1000000000; 2429827 # 500000000; 822763 # 125000000; 10084647 # 500000000; 11320791 # 200000000; 25324257 # 250000000; 1900711 # 20000000; 73888759 # 1000000000; 23900091 # 500000000; 19201351 # 500000000; 6850803 # 200000000; 3716973 # 125000000; 5725339 # 200000000; 585867 # 20000000; 14706921 # 500000000; 36306789 # 1000000000; 5003461 # 100000000; 28083049 # 500000000; 15836207 # 250000000; 65482907 # 1000000000; 28806861 # 500000000; 7389757 # 200000000]));
   ("nursing_home"%string,
    ([0 # 1; 1243781 # 250000000; 1243781 # 250000000; 1243781 # 250000000; 1243781 # 250000000; 1243781 # 250000000; 14925373 # 1000000000; 64676617 # 1000000000; 69651741 # 1000000000; 59701493 # 1000000000; 12437811 # 125000000; 12437811 # 250000000; 89552239 # 1000000000; 124378109 # 1000000000; 218905473 # 1000000000; 9950249 # 500000000; 12437811 # 500000000; 1710199 # 31250000; 34825871 # 1000000000; 14925373 # 1000000000; 14925373 # 1000000000; 9950249 # 1000000000; 1243781 # 250000000; 1243781 # 250000000],
     [133547 # 31250000; 133547 # 31250000; 133547 # 31250000; 0 # 1; 133547 # 31250000; 133547 # 31250000; 8547009 # 1000000000; 17094017 # 500000000; 17094017 # 250000000; 16025641 # 125000000; 29059829 # 200000000; 51282051 # 1000000000; 81196581 # 1000000000; 111111111 # 1000000000; 170940171 # 1000000000; 12820513 # 500000000; 12820513 # 1000000000; 12820513 # 500000000; 42735043 # 1000000000; 12820513 # 500000000; 21367521 # 1000000000; 133547 # 31250000; 12820513 # 1000000000; 8547009 # 1000000000]));
   ("office_building"%string,
    ([0 # 1; 0 # 1; 0 # 1; 0 # 1; 0 # 1; 0 # 1; 0 # 1; 0 # 1; 0 # 1; 27027027 # 500000000; 81081081 # 1000000000; 27027027 # 500000000; 171171171 # 1000000000; 27027027 # 250000000; 81081081 # 1000000000; 99099099 # 1000000000; 9009009 # 100000000; 99099099 # 1000000000; 9009009 # 200000000; 9009009 # 200000000; 63063063 # 1000000000; 9009009 # 1000000000; 0 # 1; 0 # 1],
     [0 # 1; 0 # 1; 0 # 1; 0 # 1; 0 # 1; 0 # 1; 0 # 1; 0 # 1; 0 # 1; 80357143 # 1000000000; 80357143 # 1000000000; 8928571 # 1000000000; 416666667 # 1000000000; 104166667 # 1000000000; 53571429 # 1000000000; 53571429 # 1000000000; 56547619 # 1000000000; 8928571 # 1000000000; 5952381 # 250000000; 53571429 # 1000000000; 5952381 # 100000000; 0 # 1; 0 # 1; 0 # 1]));
   ("senior_high"%string,
    ([0 # 1; 0 # 1; 0 # 1; 0 # 1; 0 # 1; 0 # 1; 0 # 1; 0 # 1; 0 # 1; 39735099 # 1000000000; 13245033 # 500000000; 36423841 # 200000000; 63576159 # 200000000; 62913907 # 1000000000; 102649007 # 1000000000; 39735099 # 1000000000; 21523179 # 500000000; 59602649 # 500000000; 33112583 # 1000000000; 13245033 # 1000000000; 13245033 # 1000000000; 0 # 1; 0 # 1; 6622517 # 1000000000],
     [0 # 1; 6134969 # 1000000000; 6134969 # 1000000000; 613497 # 200000000; 0 # 1; 0 # 1; 0 # 1; 0 # 1; 0 # 1; 61349693 # 1000000000; 30674847 # 1000000000; 4601227 # 125000000; 58282209 # 1000000000; 122699387 # 1000000000; 107361963 # 1000000000; 61349693 # 1000000000; 30674847 # 1000000000; 217791411 # 1000000000; 50613497 # 500000000; 76687117 # 1000000000; 24539877 # 1000000000; 30674847 # 1000000000; 4601227 # 250000000; 6134969 # 1000000000]));
   ("womens_dorm"%string,
    ([304878049 # 1000000000; 6097561 # 50000000; 18292683 # 500000000; 0 # 1; 0 # 1; 0 # 1; 0 # 1; 0 # 1; 18292683 # 500000000; 6097561 # 250000000; 6097561 # 1000000000; 6097561 # 1000000000; 6097561 # 1000000000; 6097561 # 500000000; 18292683 # 1000000000; 6097561 # 200000000; 6097561 # 250000000; 18292683 # 1000000000; 18292683 # 250000000; 6097561 # 100000000; 103658537 # 1000000000; 6097561 # 500000000; 6097561 # 200000000; 18292683 # 250000000],
     [204081633 # 1000000000; 43367347 # 500000000; 45918367 # 1000000000; 5102041 # 1000000000; 0 # 1; 0 # 1; 0 # 1; 0 # 1; 6122449 # 200000000; 6122449 # 200000000; 7653061 # 500000000; 6377551 # 250000000; 6377551 # 250000000; 5102041 # 500000000; 5102041 # 500000000; 5102041 # 1000000000; 5102041 # 500000000; 20408163 # 1000000000; 20408163 # 1000000000; 17857143 # 500000000; 71428571 # 1000000000; 6377551 # 50000000; 71428571 # 1000000000; 9247449 # 62500000]))].

(** WeatherStation_ClimateZone_Lookup.csv. *)
Definition shipped_stations : list (string * Z) :=
  [
   ("ID - Boise Air Terminal"%string, 67%Z);
   ("ID - Burley Muni AP"%string, 68%Z);
   ("ID - Caldwell AWOS"%string, 69%Z);
   ("ID - Coeur dAlene AWOS"%string, 70%Z);
   ("ID - Hailey-Sun Valley AP"%string, 71%Z);
   ("ID - Idaho Falls-Fanning Field"%string, 72%Z);
   ("ID - Lewiston-Nez Perce County AP"%string, 73%Z);
   ("ID - Malad City AP"%string, 74%Z);
   ("ID - Mountain Home AFB"%string, 75%Z);
   ("ID - Pocatello Muni AP"%string, 76%Z);
   ("ID - Salmon-Lemhi AWOS"%string, 77%Z);
   ("ID - Soda Springs-Tigert AP"%string, 78%Z);
   ("ID - Twin Falls-Magic Valley Rgnl AP-Joslin Field"%string, 79%Z);
   ("MT - Billings-Logan Intl AP"%string, 80%Z);
   ("MT - Bozeman-Gallatin Field"%string, 81%Z);
   ("MT - Butte-Bert Mooney AP"%string, 82%Z);
   ("MT - Cut Bank Muni AP"%string, 83%Z);
   ("MT - Glasgow Intl AP"%string, 84%Z);
   ("MT - Glendive AWOS"%string, 85%Z);
   ("MT - Great Falls Intl AP"%string, 86%Z);
   ("MT - Havre City-County AP"%string, 87%Z);
   ("MT - Helena Rgnl AP"%string, 88%Z);
   ("MT - Kalispell-Glacier Park Intl AP"%string, 89%Z);
   ("MT - Lewistown Muni AP"%string, 90%Z);
   ("MT - Livingston-Mission Field"%string, 91%Z);
   ("MT - Miles City Muni AP"%string, 92%Z);
   ("MT - Missoula Intl AP"%string, 93%Z);
   ("MT - Sidney-Richland Muni AP"%string, 94%Z);
   ("MT - Wolf Point Intl AP"%string, 95%Z);
   ("OR - Astoria Rgnl AP"%string, 48%Z);
   ("OR - Aurora State AP"%string, 49%Z);
   ("OR - Baker Muni AP"%string, 50%Z);
   ("OR - Burns Muni AP"%string, 51%Z);
   ("OR - Corvallis Muni AP"%string, 52%Z);
   ("OR - Eugene-Mahlon Sweet AP"%string, 53%Z);
   ("OR - Klamath Falls Intl AP"%string, 54%Z);
   ("OR - La Grande Muni AP"%string, 55%Z);
   ("OR - Lakeview AWOS"%string, 56%Z);
   ("OR - Medford-Rogue Valley Intl AP"%string, 57%Z);
   ("OR - North Bend Muni AP"%string, 58%Z);
   ("OR - Pendleton-Eastern Oregon Rgnl AP"%string, 59%Z);
   ("OR - Portland Hillsboro AP"%string, 60%Z);
   ("OR - Portland Intl AP"%string, 61%Z);
   ("OR - Portland-Troutdale AP"%string, 62%Z);
   ("OR - Redmond-Roberts Field"%string, 63%Z);
   ("OR - Roseburg Rgnl AP"%string, 64%Z);
   ("OR - Salem-McNary Field"%string, 65%Z);
   ("OR - Sexton Summit"%string, 66%Z);
   ("WA - Bellingham Intl Ap"%string, 20%Z);
   ("WA - Bremerton National AP"%string, 21%Z);
   ("WA - Ephrata Muni AP"%string, 22%Z);
   ("WA - Fairchild AFB"%string, 23%Z);
   ("WA - Fort Lewis-Gray AAF"%string, 24%Z);
   ("WA - Hanford"%string, 25%Z);
   ("WA - Hoquiam AP"%string, 26%Z);
   ("WA - Kelso AP"%string, 27%Z);
   ("WA - Moses Lake-Grant County AP"%string, 28%Z);
   ("WA - Olympia AP"%string, 29%Z);
   ("WA - Pasco-Tri Cities AP"%string, 30%Z);
   ("WA - Port Angeles-William R Fairchild Intl AP"%string, 31%Z);
   ("WA - Pullman-Moscow Rgnl AP"%string, 32%Z);
   ("WA - Quillayute State AP"%string, 33%Z);
   ("WA - Renton Muni AP"%string, 34%Z);
   ("WA - Seattle-Boeing Field"%string, 35%Z);
   ("WA - Seattle-Tacoma Intl AP"%string, 36%Z);
   ("WA - Snohomish County AP"%string, 37%Z);
   ("WA - Spokane-Felts Field"%string, 38%Z);
   ("WA - Stampede Pass"%string, 39%Z);
   ("WA - Tacoma McChord AFB"%string, 41%Z);
   ("WA - Tacoma Narrows AP"%string, 40%Z);
   ("WA - The Dalles Muni AP"%string, 42%Z);
   ("WA - Toledo-Winlock-Ed Carlson Mem AP"%string, 43%Z);
   ("WA - Walla Walla City-County AP"%string, 44%Z);
   ("WA - Wenatchee-Pangborn Mem AP"%string, 45%Z);
   ("WA - Whidbey Island NAS"%string, 46%Z);
   ("WA - Yakima Air Terminal-McAllister Field"%string, 47%Z);
   ("Vancouver BC"%string, 96%Z)].
