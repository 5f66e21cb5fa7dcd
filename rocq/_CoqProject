-Q theories Verif
theories/Num.v
theories/Calendar.v
theories/Psa.v
theories/Soltrack.v
theories/Iqbal.v
theories/NrelTables.v
theories/Nrel.v
theories/Arrays.v
theories/Libspa.v
theories/Time.v
theories/Core.v
theories/Usecases.v
theories/Spec.v
theories/ArraysLemmas.v
theories/PipelineLemmas.v
theories/UsecaseLemmas.v
theories/GenericLemmas.v
theories/GenericLemmas2.v
theories/TimeLemmas.v
theories/TimeFold.v
theories/Ext.v
theories/ExtLemmas.v
theories/Witness.v
theories/ExactLaws.v
theories/PropPipeline.v
theories/Sky.v
theories/AstroTac.v
theories/Refraction.v
theories/PsaR.v
theories/PsaCell.v
theories/SoltrackR.v
theories/SoltrackCell.v
theories/IqbalR.v
theories/NrelR.v
theories/NrelCell.v
theories/AstroSpec.v
theories/Astro.v
theories/AstroCell.v
theories/AstroCall.v
theories/AstroRefr.v
theories/AstroRefute.v
theories/Float32.v
theories/PropAstro.v
theories/NanCells.v
theories/EngineLemmas.v
theories/PropEngines.v
theories/Sunpos.v
theories/SunposSpec.v
theories/SunposLemmas.v
theories/SunposR.v
theories/SkyClose.v
theories/SunposCells.v
theories/PropSunpos.v
theories/CalendarSpec.v
theories/CalendarLemmas.v
theories/CalendarSweep.v
theories/PropCalendar.v
theories/Cli.v
theories/PropCli.v
theories/Tools.v
theories/Scores.v
theories/PropScores.v
theories/PropTools.v
theories/Chart.v
theories/ChartLemmas.v
theories/PropChart.v
theories/Almanac.v
theories/AlmanacR.v
theories/AlmanacN.v
theories/AlmanacSky.v
theories/AlmanacTime.v
theories/AlmanacIqbal.v
theories/AlmanacPos.v
theories/PropAlmanac.v
theories/SmoothR.v
theories/SmoothN.v
theories/SmoothE.v
theories/SmoothI.v
theories/SmoothPos.v
theories/PropSmooth.v
theories/SingleSpec.v
theories/Float32L.v
theories/SingleLemmas.v
theories/SingleCell.v
theories/PropSingle.v
theories/SingleRefute.v
theories/PropSinglePos.v
theories/Double.v
theories/Float64.v
theories/DoubleTac.v
theories/DoubleLemmas.v
theories/PsaD.v
theories/SoltrackD.v
theories/IqbalD.v
theories/DoubleSpec.v
theories/DoubleCore.v
theories/DoubleCell.v
theories/NrelD.v
theories/NrelCellD.v
theories/TopoSpec.v
theories/DoublePos.v
theories/NrelPos.v
theories/TopoDist.v
theories/PropDouble.v
theories/PropDoublePos.v
theories/PropNrelD.v
theories/RefrSpec.v
theories/RefrD.v
theories/PropRefrD.v
theories/SunposD.v
theories/SunposE.v
theories/PropSunposD.v
theories/DayR.v
theories/PropDay.v
theories/SeasonSpec.v
theories/SeasonR.v
theories/PropSeasons.v
theories/PropSmoothD.v
theories/PropClimb.v
theories/PropNoon.v
theories/PropTrack.v
theories/AirmassR.v
theories/PropAirmass.v
theories/PropRefrOrder.v
theories/PropEarth.v
theories/PropTurn.v
theories/PropRepeat.v
theories/PropRise.v
theories/PropDial.v
theories/PropDays.v
theories/Labels.v
theories/PropLabels.v
theories/Alias.v
theories/PropAlias.v
theories/Places.v
theories/PropPlaces.v
