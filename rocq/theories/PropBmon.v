(** * The example that comes with the repository (examples/bmon)

    The texts below are the files of the example, byte for byte: the traces, the configuration, the code for
    conversions, and the outputs of rtcg-read-traces and rtcg-make-stms that the authors recorded (tests.json,
    stms.json).  The model of the two tools reproduces both outputs exactly ([C87_recorded]), which tests the model against what the real tools did; and C82 applies to the example
    ([C87_exit_codes]). *)
From Coq Require Import Floats.SpecFloat.
From Verif Require Export PropTools PropChain PropConvert.
From Verif Require Export StmProofs.

(** examples/bmon/traces, all of it. *)
Definition bmon_traces : gostr := lit "#
# Tests for the battery monitor
#
# Last updated 2023-02-13
#

# The monitor can’t report that the battery is OK before receiving a battery reading.
b1a: batteryStatus.out.Ok

# The monitor can’t report that the battery is mission-critical before receiving a battery reading.
b1b: batteryStatus.out.MissionCritical

# The monitor can’t report that the battery is safety-critical before receiving a battery reading.
b1c: batteryStatus.out.SafetyCritical

# The monitor can’t receive a battery information report before handling the preceding one.
b2a: batteryInfo.in.100, batteryInfo.in.100
b2b: batteryInfo.in.30 , batteryInfo.in.30
b2c: batteryInfo.in.20 , batteryInfo.in.20

# The monitor can’t declare an OK battery reading as mission-critical.
b3a: batteryInfo.in.100, batteryStatus.out.MissionCritical

# The monitor can’t declare an OK battery reading as safety-critical.
b3b: batteryInfo.in.100, batteryStatus.out.SafetyCritical

# The monitor can’t declare a mission-critical battery reading as OK.
b3c: batteryInfo.in.30, batteryStatus.out.Ok

# The monitor can’t declare a mission-critical battery reading as safety-critical.
b3d: batteryInfo.in.30, batteryStatus.out.SafetyCritical

# The monitor can’t declare a safety-critical battery reading as OK.
b3e: batteryInfo.in.20, batteryStatus.out.Ok

# The monitor can’t declare a safety-critical battery reading as mission-critical.
b3f: batteryInfo.in.20, batteryStatus.out.MissionCritical

# The monitor can’t emit Ok then Ok without taking another battery reading in between. (This may be an overspecification)
b4a: batteryInfo.in.100, batteryStatus.out.Ok, batteryStatus.out.Ok

# The monitor can’t emit Ok then MissionCritical without taking another battery reading in between.
b4b: batteryInfo.in.100, batteryStatus.out.Ok, batteryStatus.out.MissionCritical

# The monitor can’t emit Ok then SafetyCritical without taking another battery reading in between.
b4c: batteryInfo.in.100, batteryStatus.out.Ok, batteryStatus.out.SafetyCritical

# The monitor can’t emit MissionCritical then Ok without taking another battery reading in between.
b4d: batteryInfo.in.30, batteryStatus.out.MissionCritical, batteryStatus.out.Ok

# The monitor can’t emit MissionCritical then MissionCritical without taking another battery reading in between. (This may be an overspecification)
b4e: batteryInfo.in.30, batteryStatus.out.MissionCritical, batteryStatus.out.MissionCritical

# The monitor can’t emit MissionCritical then SafetyCritical without taking another battery reading in between.
b4f: batteryInfo.in.30, batteryStatus.out.MissionCritical, batteryStatus.out.SafetyCritical

# The monitor can’t emit SafetyCritical then Ok without taking another battery reading in between.
b4g: batteryInfo.in.20, batteryStatus.out.SafetyCritical, batteryStatus.out.Ok

# The monitor can’t emit SafetyCritical then MissionCritical without taking another battery reading in between.
b4h: batteryInfo.in.20, batteryStatus.out.SafetyCritical, batteryStatus.out.MissionCritical

# The monitor can’t emit SafetyCritical then SafetyCritical without taking another battery reading in between. (This may be an overspecification)
b4i: batteryInfo.in.20, batteryStatus.out.SafetyCritical, batteryStatus.out.SafetyCritical
".

(** examples/bmon/tests.json, all of it. *)
Definition bmon_tests : gostr := lit "{
	""b1a"": {
		""tests"": [
			""b1a""
		],
		""next"": [
			{
				""tests"": [
					""b1a""
				],
				""outcome"": ""pass"",
				""event"": ""batteryStatus.out.Ok"",
				""next"": [
					{
						""tests"": [
							""b1a""
						],
						""outcome"": ""fail""
					}
				]
			}
		]
	},
	""b1b"": {
		""tests"": [
			""b1b""
		],
		""next"": [
			{
				""tests"": [
					""b1b""
				],
				""outcome"": ""pass"",
				""event"": ""batteryStatus.out.MissionCritical"",
				""next"": [
					{
						""tests"": [
							""b1b""
						],
						""outcome"": ""fail""
					}
				]
			}
		]
	},
	""b1c"": {
		""tests"": [
			""b1c""
		],
		""next"": [
			{
				""tests"": [
					""b1c""
				],
				""outcome"": ""pass"",
				""event"": ""batteryStatus.out.SafetyCritical"",
				""next"": [
					{
						""tests"": [
							""b1c""
						],
						""outcome"": ""fail""
					}
				]
			}
		]
	},
	""b2a"": {
		""tests"": [
			""b2a""
		],
		""next"": [
			{
				""tests"": [
					""b2a""
				],
				""outcome"": ""inc"",
				""event"": ""batteryInfo.in.100"",
				""next"": [
					{
						""tests"": [
							""b2a""
						],
						""outcome"": ""pass"",
						""event"": ""batteryInfo.in.100"",
						""next"": [
							{
								""tests"": [
									""b2a""
								],
								""outcome"": ""fail""
							}
						]
					}
				]
			}
		]
	},
	""b2b"": {
		""tests"": [
			""b2b""
		],
		""next"": [
			{
				""tests"": [
					""b2b""
				],
				""outcome"": ""inc"",
				""event"": ""batteryInfo.in.30"",
				""next"": [
					{
						""tests"": [
							""b2b""
						],
						""outcome"": ""pass"",
						""event"": ""batteryInfo.in.30"",
						""next"": [
							{
								""tests"": [
									""b2b""
								],
								""outcome"": ""fail""
							}
						]
					}
				]
			}
		]
	},
	""b2c"": {
		""tests"": [
			""b2c""
		],
		""next"": [
			{
				""tests"": [
					""b2c""
				],
				""outcome"": ""inc"",
				""event"": ""batteryInfo.in.20"",
				""next"": [
					{
						""tests"": [
							""b2c""
						],
						""outcome"": ""pass"",
						""event"": ""batteryInfo.in.20"",
						""next"": [
							{
								""tests"": [
									""b2c""
								],
								""outcome"": ""fail""
							}
						]
					}
				]
			}
		]
	},
	""b3a"": {
		""tests"": [
			""b3a""
		],
		""next"": [
			{
				""tests"": [
					""b3a""
				],
				""outcome"": ""inc"",
				""event"": ""batteryInfo.in.100"",
				""next"": [
					{
						""tests"": [
							""b3a""
						],
						""outcome"": ""pass"",
						""event"": ""batteryStatus.out.MissionCritical"",
						""next"": [
							{
								""tests"": [
									""b3a""
								],
								""outcome"": ""fail""
							}
						]
					}
				]
			}
		]
	},
	""b3b"": {
		""tests"": [
			""b3b""
		],
		""next"": [
			{
				""tests"": [
					""b3b""
				],
				""outcome"": ""inc"",
				""event"": ""batteryInfo.in.100"",
				""next"": [
					{
						""tests"": [
							""b3b""
						],
						""outcome"": ""pass"",
						""event"": ""batteryStatus.out.SafetyCritical"",
						""next"": [
							{
								""tests"": [
									""b3b""
								],
								""outcome"": ""fail""
							}
						]
					}
				]
			}
		]
	},
	""b3c"": {
		""tests"": [
			""b3c""
		],
		""next"": [
			{
				""tests"": [
					""b3c""
				],
				""outcome"": ""inc"",
				""event"": ""batteryInfo.in.30"",
				""next"": [
					{
						""tests"": [
							""b3c""
						],
						""outcome"": ""pass"",
						""event"": ""batteryStatus.out.Ok"",
						""next"": [
							{
								""tests"": [
									""b3c""
								],
								""outcome"": ""fail""
							}
						]
					}
				]
			}
		]
	},
	""b3d"": {
		""tests"": [
			""b3d""
		],
		""next"": [
			{
				""tests"": [
					""b3d""
				],
				""outcome"": ""inc"",
				""event"": ""batteryInfo.in.30"",
				""next"": [
					{
						""tests"": [
							""b3d""
						],
						""outcome"": ""pass"",
						""event"": ""batteryStatus.out.SafetyCritical"",
						""next"": [
							{
								""tests"": [
									""b3d""
								],
								""outcome"": ""fail""
							}
						]
					}
				]
			}
		]
	},
	""b3e"": {
		""tests"": [
			""b3e""
		],
		""next"": [
			{
				""tests"": [
					""b3e""
				],
				""outcome"": ""inc"",
				""event"": ""batteryInfo.in.20"",
				""next"": [
					{
						""tests"": [
							""b3e""
						],
						""outcome"": ""pass"",
						""event"": ""batteryStatus.out.Ok"",
						""next"": [
							{
								""tests"": [
									""b3e""
								],
								""outcome"": ""fail""
							}
						]
					}
				]
			}
		]
	},
	""b3f"": {
		""tests"": [
			""b3f""
		],
		""next"": [
			{
				""tests"": [
					""b3f""
				],
				""outcome"": ""inc"",
				""event"": ""batteryInfo.in.20"",
				""next"": [
					{
						""tests"": [
							""b3f""
						],
						""outcome"": ""pass"",
						""event"": ""batteryStatus.out.MissionCritical"",
						""next"": [
							{
								""tests"": [
									""b3f""
								],
								""outcome"": ""fail""
							}
						]
					}
				]
			}
		]
	},
	""b4a"": {
		""tests"": [
			""b4a""
		],
		""next"": [
			{
				""tests"": [
					""b4a""
				],
				""outcome"": ""inc"",
				""event"": ""batteryInfo.in.100"",
				""next"": [
					{
						""tests"": [
							""b4a""
						],
						""outcome"": ""inc"",
						""event"": ""batteryStatus.out.Ok"",
						""next"": [
							{
								""tests"": [
									""b4a""
								],
								""outcome"": ""pass"",
								""event"": ""batteryStatus.out.Ok"",
								""next"": [
									{
										""tests"": [
											""b4a""
										],
										""outcome"": ""fail""
									}
								]
							}
						]
					}
				]
			}
		]
	},
	""b4b"": {
		""tests"": [
			""b4b""
		],
		""next"": [
			{
				""tests"": [
					""b4b""
				],
				""outcome"": ""inc"",
				""event"": ""batteryInfo.in.100"",
				""next"": [
					{
						""tests"": [
							""b4b""
						],
						""outcome"": ""inc"",
						""event"": ""batteryStatus.out.Ok"",
						""next"": [
							{
								""tests"": [
									""b4b""
								],
								""outcome"": ""pass"",
								""event"": ""batteryStatus.out.MissionCritical"",
								""next"": [
									{
										""tests"": [
											""b4b""
										],
										""outcome"": ""fail""
									}
								]
							}
						]
					}
				]
			}
		]
	},
	""b4c"": {
		""tests"": [
			""b4c""
		],
		""next"": [
			{
				""tests"": [
					""b4c""
				],
				""outcome"": ""inc"",
				""event"": ""batteryInfo.in.100"",
				""next"": [
					{
						""tests"": [
							""b4c""
						],
						""outcome"": ""inc"",
						""event"": ""batteryStatus.out.Ok"",
						""next"": [
							{
								""tests"": [
									""b4c""
								],
								""outcome"": ""pass"",
								""event"": ""batteryStatus.out.SafetyCritical"",
								""next"": [
									{
										""tests"": [
											""b4c""
										],
										""outcome"": ""fail""
									}
								]
							}
						]
					}
				]
			}
		]
	},
	""b4d"": {
		""tests"": [
			""b4d""
		],
		""next"": [
			{
				""tests"": [
					""b4d""
				],
				""outcome"": ""inc"",
				""event"": ""batteryInfo.in.30"",
				""next"": [
					{
						""tests"": [
							""b4d""
						],
						""outcome"": ""inc"",
						""event"": ""batteryStatus.out.MissionCritical"",
						""next"": [
							{
								""tests"": [
									""b4d""
								],
								""outcome"": ""pass"",
								""event"": ""batteryStatus.out.Ok"",
								""next"": [
									{
										""tests"": [
											""b4d""
										],
										""outcome"": ""fail""
									}
								]
							}
						]
					}
				]
			}
		]
	},
	""b4e"": {
		""tests"": [
			""b4e""
		],
		""next"": [
			{
				""tests"": [
					""b4e""
				],
				""outcome"": ""inc"",
				""event"": ""batteryInfo.in.30"",
				""next"": [
					{
						""tests"": [
							""b4e""
						],
						""outcome"": ""inc"",
						""event"": ""batteryStatus.out.MissionCritical"",
						""next"": [
							{
								""tests"": [
									""b4e""
								],
								""outcome"": ""pass"",
								""event"": ""batteryStatus.out.MissionCritical"",
								""next"": [
									{
										""tests"": [
											""b4e""
										],
										""outcome"": ""fail""
									}
								]
							}
						]
					}
				]
			}
		]
	},
	""b4f"": {
		""tests"": [
			""b4f""
		],
		""next"": [
			{
				""tests"": [
					""b4f""
				],
				""outcome"": ""inc"",
				""event"": ""batteryInfo.in.30"",
				""next"": [
					{
						""tests"": [
							""b4f""
						],
						""outcome"": ""inc"",
						""event"": ""batteryStatus.out.MissionCritical"",
						""next"": [
							{
								""tests"": [
									""b4f""
								],
								""outcome"": ""pass"",
								""event"": ""batteryStatus.out.SafetyCritical"",
								""next"": [
									{
										""tests"": [
											""b4f""
										],
										""outcome"": ""fail""
									}
								]
							}
						]
					}
				]
			}
		]
	},
	""b4g"": {
		""tests"": [
			""b4g""
		],
		""next"": [
			{
				""tests"": [
					""b4g""
				],
				""outcome"": ""inc"",
				""event"": ""batteryInfo.in.20"",
				""next"": [
					{
						""tests"": [
							""b4g""
						],
						""outcome"": ""inc"",
						""event"": ""batteryStatus.out.SafetyCritical"",
						""next"": [
							{
								""tests"": [
									""b4g""
								],
								""outcome"": ""pass"",
								""event"": ""batteryStatus.out.Ok"",
								""next"": [
									{
										""tests"": [
											""b4g""
										],
										""outcome"": ""fail""
									}
								]
							}
						]
					}
				]
			}
		]
	},
	""b4h"": {
		""tests"": [
			""b4h""
		],
		""next"": [
			{
				""tests"": [
					""b4h""
				],
				""outcome"": ""inc"",
				""event"": ""batteryInfo.in.20"",
				""next"": [
					{
						""tests"": [
							""b4h""
						],
						""outcome"": ""inc"",
						""event"": ""batteryStatus.out.SafetyCritical"",
						""next"": [
							{
								""tests"": [
									""b4h""
								],
								""outcome"": ""pass"",
								""event"": ""batteryStatus.out.MissionCritical"",
								""next"": [
									{
										""tests"": [
											""b4h""
										],
										""outcome"": ""fail""
									}
								]
							}
						]
					}
				]
			}
		]
	},
	""b4i"": {
		""tests"": [
			""b4i""
		],
		""next"": [
			{
				""tests"": [
					""b4i""
				],
				""outcome"": ""inc"",
				""event"": ""batteryInfo.in.20"",
				""next"": [
					{
						""tests"": [
							""b4i""
						],
						""outcome"": ""inc"",
						""event"": ""batteryStatus.out.SafetyCritical"",
						""next"": [
							{
								""tests"": [
									""b4i""
								],
								""outcome"": ""pass"",
								""event"": ""batteryStatus.out.SafetyCritical"",
								""next"": [
									{
										""tests"": [
											""b4i""
										],
										""outcome"": ""fail""
									}
								]
							}
						]
					}
				]
			}
		]
	}
}
".

(** examples/bmon/stms.json, all of it. *)
Definition bmon_stms : gostr := lit "{
	""types"": {
		""batteryInfo"": ""nat"",
		""batteryStatus"": ""enum""
	},
	""tests"": {
		""b1a"": {
			""states"": [
				{
					""id"": ""initial"",
					""transitionSets"": [
						{
							""channel"": ""batteryStatus.out"",
							""transitions"": [
								{
									""value"": ""Ok"",
									""next"": ""step0""
								}
							]
						}
					],
					""verdicts"": {
						""b1a"": ""pass""
					}
				},
				{
					""id"": ""step0"",
					""verdicts"": {
						""b1a"": ""fail""
					}
				}
			],
			""types"": {
				""batteryStatus"": ""enum""
			},
			""tests"": [
				""b1a""
			]
		},
		""b1b"": {
			""states"": [
				{
					""id"": ""initial"",
					""transitionSets"": [
						{
							""channel"": ""batteryStatus.out"",
							""transitions"": [
								{
									""value"": ""MissionCritical"",
									""next"": ""step0""
								}
							]
						}
					],
					""verdicts"": {
						""b1b"": ""pass""
					}
				},
				{
					""id"": ""step0"",
					""verdicts"": {
						""b1b"": ""fail""
					}
				}
			],
			""types"": {
				""batteryStatus"": ""enum""
			},
			""tests"": [
				""b1b""
			]
		},
		""b1c"": {
			""states"": [
				{
					""id"": ""initial"",
					""transitionSets"": [
						{
							""channel"": ""batteryStatus.out"",
							""transitions"": [
								{
									""value"": ""SafetyCritical"",
									""next"": ""step0""
								}
							]
						}
					],
					""verdicts"": {
						""b1c"": ""pass""
					}
				},
				{
					""id"": ""step0"",
					""verdicts"": {
						""b1c"": ""fail""
					}
				}
			],
			""types"": {
				""batteryStatus"": ""enum""
			},
			""tests"": [
				""b1c""
			]
		},
		""b2a"": {
			""states"": [
				{
					""id"": ""initial"",
					""transitionSets"": [
						{
							""channel"": ""batteryInfo.in"",
							""transitions"": [
								{
									""value"": ""100"",
									""next"": ""step0""
								}
							]
						}
					],
					""verdicts"": {
						""b2a"": ""inc""
					}
				},
				{
					""id"": ""step0"",
					""transitionSets"": [
						{
							""channel"": ""batteryInfo.in"",
							""transitions"": [
								{
									""value"": ""100"",
									""next"": ""step1""
								}
							]
						}
					],
					""verdicts"": {
						""b2a"": ""pass""
					}
				},
				{
					""id"": ""step1"",
					""verdicts"": {
						""b2a"": ""fail""
					}
				}
			],
			""types"": {
				""batteryInfo"": ""nat""
			},
			""tests"": [
				""b2a""
			]
		},
		""b2b"": {
			""states"": [
				{
					""id"": ""initial"",
					""transitionSets"": [
						{
							""channel"": ""batteryInfo.in"",
							""transitions"": [
								{
									""value"": ""30"",
									""next"": ""step0""
								}
							]
						}
					],
					""verdicts"": {
						""b2b"": ""inc""
					}
				},
				{
					""id"": ""step0"",
					""transitionSets"": [
						{
							""channel"": ""batteryInfo.in"",
							""transitions"": [
								{
									""value"": ""30"",
									""next"": ""step1""
								}
							]
						}
					],
					""verdicts"": {
						""b2b"": ""pass""
					}
				},
				{
					""id"": ""step1"",
					""verdicts"": {
						""b2b"": ""fail""
					}
				}
			],
			""types"": {
				""batteryInfo"": ""nat""
			},
			""tests"": [
				""b2b""
			]
		},
		""b2c"": {
			""states"": [
				{
					""id"": ""initial"",
					""transitionSets"": [
						{
							""channel"": ""batteryInfo.in"",
							""transitions"": [
								{
									""value"": ""20"",
									""next"": ""step0""
								}
							]
						}
					],
					""verdicts"": {
						""b2c"": ""inc""
					}
				},
				{
					""id"": ""step0"",
					""transitionSets"": [
						{
							""channel"": ""batteryInfo.in"",
							""transitions"": [
								{
									""value"": ""20"",
									""next"": ""step1""
								}
							]
						}
					],
					""verdicts"": {
						""b2c"": ""pass""
					}
				},
				{
					""id"": ""step1"",
					""verdicts"": {
						""b2c"": ""fail""
					}
				}
			],
			""types"": {
				""batteryInfo"": ""nat""
			},
			""tests"": [
				""b2c""
			]
		},
		""b3a"": {
			""states"": [
				{
					""id"": ""initial"",
					""transitionSets"": [
						{
							""channel"": ""batteryInfo.in"",
							""transitions"": [
								{
									""value"": ""100"",
									""next"": ""step0""
								}
							]
						}
					],
					""verdicts"": {
						""b3a"": ""inc""
					}
				},
				{
					""id"": ""step0"",
					""transitionSets"": [
						{
							""channel"": ""batteryStatus.out"",
							""transitions"": [
								{
									""value"": ""MissionCritical"",
									""next"": ""step1""
								}
							]
						}
					],
					""verdicts"": {
						""b3a"": ""pass""
					}
				},
				{
					""id"": ""step1"",
					""verdicts"": {
						""b3a"": ""fail""
					}
				}
			],
			""types"": {
				""batteryInfo"": ""nat"",
				""batteryStatus"": ""enum""
			},
			""tests"": [
				""b3a""
			]
		},
		""b3b"": {
			""states"": [
				{
					""id"": ""initial"",
					""transitionSets"": [
						{
							""channel"": ""batteryInfo.in"",
							""transitions"": [
								{
									""value"": ""100"",
									""next"": ""step0""
								}
							]
						}
					],
					""verdicts"": {
						""b3b"": ""inc""
					}
				},
				{
					""id"": ""step0"",
					""transitionSets"": [
						{
							""channel"": ""batteryStatus.out"",
							""transitions"": [
								{
									""value"": ""SafetyCritical"",
									""next"": ""step1""
								}
							]
						}
					],
					""verdicts"": {
						""b3b"": ""pass""
					}
				},
				{
					""id"": ""step1"",
					""verdicts"": {
						""b3b"": ""fail""
					}
				}
			],
			""types"": {
				""batteryInfo"": ""nat"",
				""batteryStatus"": ""enum""
			},
			""tests"": [
				""b3b""
			]
		},
		""b3c"": {
			""states"": [
				{
					""id"": ""initial"",
					""transitionSets"": [
						{
							""channel"": ""batteryInfo.in"",
							""transitions"": [
								{
									""value"": ""30"",
									""next"": ""step0""
								}
							]
						}
					],
					""verdicts"": {
						""b3c"": ""inc""
					}
				},
				{
					""id"": ""step0"",
					""transitionSets"": [
						{
							""channel"": ""batteryStatus.out"",
							""transitions"": [
								{
									""value"": ""Ok"",
									""next"": ""step1""
								}
							]
						}
					],
					""verdicts"": {
						""b3c"": ""pass""
					}
				},
				{
					""id"": ""step1"",
					""verdicts"": {
						""b3c"": ""fail""
					}
				}
			],
			""types"": {
				""batteryInfo"": ""nat"",
				""batteryStatus"": ""enum""
			},
			""tests"": [
				""b3c""
			]
		},
		""b3d"": {
			""states"": [
				{
					""id"": ""initial"",
					""transitionSets"": [
						{
							""channel"": ""batteryInfo.in"",
							""transitions"": [
								{
									""value"": ""30"",
									""next"": ""step0""
								}
							]
						}
					],
					""verdicts"": {
						""b3d"": ""inc""
					}
				},
				{
					""id"": ""step0"",
					""transitionSets"": [
						{
							""channel"": ""batteryStatus.out"",
							""transitions"": [
								{
									""value"": ""SafetyCritical"",
									""next"": ""step1""
								}
							]
						}
					],
					""verdicts"": {
						""b3d"": ""pass""
					}
				},
				{
					""id"": ""step1"",
					""verdicts"": {
						""b3d"": ""fail""
					}
				}
			],
			""types"": {
				""batteryInfo"": ""nat"",
				""batteryStatus"": ""enum""
			},
			""tests"": [
				""b3d""
			]
		},
		""b3e"": {
			""states"": [
				{
					""id"": ""initial"",
					""transitionSets"": [
						{
							""channel"": ""batteryInfo.in"",
							""transitions"": [
								{
									""value"": ""20"",
									""next"": ""step0""
								}
							]
						}
					],
					""verdicts"": {
						""b3e"": ""inc""
					}
				},
				{
					""id"": ""step0"",
					""transitionSets"": [
						{
							""channel"": ""batteryStatus.out"",
							""transitions"": [
								{
									""value"": ""Ok"",
									""next"": ""step1""
								}
							]
						}
					],
					""verdicts"": {
						""b3e"": ""pass""
					}
				},
				{
					""id"": ""step1"",
					""verdicts"": {
						""b3e"": ""fail""
					}
				}
			],
			""types"": {
				""batteryInfo"": ""nat"",
				""batteryStatus"": ""enum""
			},
			""tests"": [
				""b3e""
			]
		},
		""b3f"": {
			""states"": [
				{
					""id"": ""initial"",
					""transitionSets"": [
						{
							""channel"": ""batteryInfo.in"",
							""transitions"": [
								{
									""value"": ""20"",
									""next"": ""step0""
								}
							]
						}
					],
					""verdicts"": {
						""b3f"": ""inc""
					}
				},
				{
					""id"": ""step0"",
					""transitionSets"": [
						{
							""channel"": ""batteryStatus.out"",
							""transitions"": [
								{
									""value"": ""MissionCritical"",
									""next"": ""step1""
								}
							]
						}
					],
					""verdicts"": {
						""b3f"": ""pass""
					}
				},
				{
					""id"": ""step1"",
					""verdicts"": {
						""b3f"": ""fail""
					}
				}
			],
			""types"": {
				""batteryInfo"": ""nat"",
				""batteryStatus"": ""enum""
			},
			""tests"": [
				""b3f""
			]
		},
		""b4a"": {
			""states"": [
				{
					""id"": ""initial"",
					""transitionSets"": [
						{
							""channel"": ""batteryInfo.in"",
							""transitions"": [
								{
									""value"": ""100"",
									""next"": ""step0""
								}
							]
						}
					],
					""verdicts"": {
						""b4a"": ""inc""
					}
				},
				{
					""id"": ""step0"",
					""transitionSets"": [
						{
							""channel"": ""batteryStatus.out"",
							""transitions"": [
								{
									""value"": ""Ok"",
									""next"": ""step1""
								}
							]
						}
					],
					""verdicts"": {
						""b4a"": ""inc""
					}
				},
				{
					""id"": ""step1"",
					""transitionSets"": [
						{
							""channel"": ""batteryStatus.out"",
							""transitions"": [
								{
									""value"": ""Ok"",
									""next"": ""step2""
								}
							]
						}
					],
					""verdicts"": {
						""b4a"": ""pass""
					}
				},
				{
					""id"": ""step2"",
					""verdicts"": {
						""b4a"": ""fail""
					}
				}
			],
			""types"": {
				""batteryInfo"": ""nat"",
				""batteryStatus"": ""enum""
			},
			""tests"": [
				""b4a""
			]
		},
		""b4b"": {
			""states"": [
				{
					""id"": ""initial"",
					""transitionSets"": [
						{
							""channel"": ""batteryInfo.in"",
							""transitions"": [
								{
									""value"": ""100"",
									""next"": ""step0""
								}
							]
						}
					],
					""verdicts"": {
						""b4b"": ""inc""
					}
				},
				{
					""id"": ""step0"",
					""transitionSets"": [
						{
							""channel"": ""batteryStatus.out"",
							""transitions"": [
								{
									""value"": ""Ok"",
									""next"": ""step1""
								}
							]
						}
					],
					""verdicts"": {
						""b4b"": ""inc""
					}
				},
				{
					""id"": ""step1"",
					""transitionSets"": [
						{
							""channel"": ""batteryStatus.out"",
							""transitions"": [
								{
									""value"": ""MissionCritical"",
									""next"": ""step2""
								}
							]
						}
					],
					""verdicts"": {
						""b4b"": ""pass""
					}
				},
				{
					""id"": ""step2"",
					""verdicts"": {
						""b4b"": ""fail""
					}
				}
			],
			""types"": {
				""batteryInfo"": ""nat"",
				""batteryStatus"": ""enum""
			},
			""tests"": [
				""b4b""
			]
		},
		""b4c"": {
			""states"": [
				{
					""id"": ""initial"",
					""transitionSets"": [
						{
							""channel"": ""batteryInfo.in"",
							""transitions"": [
								{
									""value"": ""100"",
									""next"": ""step0""
								}
							]
						}
					],
					""verdicts"": {
						""b4c"": ""inc""
					}
				},
				{
					""id"": ""step0"",
					""transitionSets"": [
						{
							""channel"": ""batteryStatus.out"",
							""transitions"": [
								{
									""value"": ""Ok"",
									""next"": ""step1""
								}
							]
						}
					],
					""verdicts"": {
						""b4c"": ""inc""
					}
				},
				{
					""id"": ""step1"",
					""transitionSets"": [
						{
							""channel"": ""batteryStatus.out"",
							""transitions"": [
								{
									""value"": ""SafetyCritical"",
									""next"": ""step2""
								}
							]
						}
					],
					""verdicts"": {
						""b4c"": ""pass""
					}
				},
				{
					""id"": ""step2"",
					""verdicts"": {
						""b4c"": ""fail""
					}
				}
			],
			""types"": {
				""batteryInfo"": ""nat"",
				""batteryStatus"": ""enum""
			},
			""tests"": [
				""b4c""
			]
		},
		""b4d"": {
			""states"": [
				{
					""id"": ""initial"",
					""transitionSets"": [
						{
							""channel"": ""batteryInfo.in"",
							""transitions"": [
								{
									""value"": ""30"",
									""next"": ""step0""
								}
							]
						}
					],
					""verdicts"": {
						""b4d"": ""inc""
					}
				},
				{
					""id"": ""step0"",
					""transitionSets"": [
						{
							""channel"": ""batteryStatus.out"",
							""transitions"": [
								{
									""value"": ""MissionCritical"",
									""next"": ""step1""
								}
							]
						}
					],
					""verdicts"": {
						""b4d"": ""inc""
					}
				},
				{
					""id"": ""step1"",
					""transitionSets"": [
						{
							""channel"": ""batteryStatus.out"",
							""transitions"": [
								{
									""value"": ""Ok"",
									""next"": ""step2""
								}
							]
						}
					],
					""verdicts"": {
						""b4d"": ""pass""
					}
				},
				{
					""id"": ""step2"",
					""verdicts"": {
						""b4d"": ""fail""
					}
				}
			],
			""types"": {
				""batteryInfo"": ""nat"",
				""batteryStatus"": ""enum""
			},
			""tests"": [
				""b4d""
			]
		},
		""b4e"": {
			""states"": [
				{
					""id"": ""initial"",
					""transitionSets"": [
						{
							""channel"": ""batteryInfo.in"",
							""transitions"": [
								{
									""value"": ""30"",
									""next"": ""step0""
								}
							]
						}
					],
					""verdicts"": {
						""b4e"": ""inc""
					}
				},
				{
					""id"": ""step0"",
					""transitionSets"": [
						{
							""channel"": ""batteryStatus.out"",
							""transitions"": [
								{
									""value"": ""MissionCritical"",
									""next"": ""step1""
								}
							]
						}
					],
					""verdicts"": {
						""b4e"": ""inc""
					}
				},
				{
					""id"": ""step1"",
					""transitionSets"": [
						{
							""channel"": ""batteryStatus.out"",
							""transitions"": [
								{
									""value"": ""MissionCritical"",
									""next"": ""step2""
								}
							]
						}
					],
					""verdicts"": {
						""b4e"": ""pass""
					}
				},
				{
					""id"": ""step2"",
					""verdicts"": {
						""b4e"": ""fail""
					}
				}
			],
			""types"": {
				""batteryInfo"": ""nat"",
				""batteryStatus"": ""enum""
			},
			""tests"": [
				""b4e""
			]
		},
		""b4f"": {
			""states"": [
				{
					""id"": ""initial"",
					""transitionSets"": [
						{
							""channel"": ""batteryInfo.in"",
							""transitions"": [
								{
									""value"": ""30"",
									""next"": ""step0""
								}
							]
						}
					],
					""verdicts"": {
						""b4f"": ""inc""
					}
				},
				{
					""id"": ""step0"",
					""transitionSets"": [
						{
							""channel"": ""batteryStatus.out"",
							""transitions"": [
								{
									""value"": ""MissionCritical"",
									""next"": ""step1""
								}
							]
						}
					],
					""verdicts"": {
						""b4f"": ""inc""
					}
				},
				{
					""id"": ""step1"",
					""transitionSets"": [
						{
							""channel"": ""batteryStatus.out"",
							""transitions"": [
								{
									""value"": ""SafetyCritical"",
									""next"": ""step2""
								}
							]
						}
					],
					""verdicts"": {
						""b4f"": ""pass""
					}
				},
				{
					""id"": ""step2"",
					""verdicts"": {
						""b4f"": ""fail""
					}
				}
			],
			""types"": {
				""batteryInfo"": ""nat"",
				""batteryStatus"": ""enum""
			},
			""tests"": [
				""b4f""
			]
		},
		""b4g"": {
			""states"": [
				{
					""id"": ""initial"",
					""transitionSets"": [
						{
							""channel"": ""batteryInfo.in"",
							""transitions"": [
								{
									""value"": ""20"",
									""next"": ""step0""
								}
							]
						}
					],
					""verdicts"": {
						""b4g"": ""inc""
					}
				},
				{
					""id"": ""step0"",
					""transitionSets"": [
						{
							""channel"": ""batteryStatus.out"",
							""transitions"": [
								{
									""value"": ""SafetyCritical"",
									""next"": ""step1""
								}
							]
						}
					],
					""verdicts"": {
						""b4g"": ""inc""
					}
				},
				{
					""id"": ""step1"",
					""transitionSets"": [
						{
							""channel"": ""batteryStatus.out"",
							""transitions"": [
								{
									""value"": ""Ok"",
									""next"": ""step2""
								}
							]
						}
					],
					""verdicts"": {
						""b4g"": ""pass""
					}
				},
				{
					""id"": ""step2"",
					""verdicts"": {
						""b4g"": ""fail""
					}
				}
			],
			""types"": {
				""batteryInfo"": ""nat"",
				""batteryStatus"": ""enum""
			},
			""tests"": [
				""b4g""
			]
		},
		""b4h"": {
			""states"": [
				{
					""id"": ""initial"",
					""transitionSets"": [
						{
							""channel"": ""batteryInfo.in"",
							""transitions"": [
								{
									""value"": ""20"",
									""next"": ""step0""
								}
							]
						}
					],
					""verdicts"": {
						""b4h"": ""inc""
					}
				},
				{
					""id"": ""step0"",
					""transitionSets"": [
						{
							""channel"": ""batteryStatus.out"",
							""transitions"": [
								{
									""value"": ""SafetyCritical"",
									""next"": ""step1""
								}
							]
						}
					],
					""verdicts"": {
						""b4h"": ""inc""
					}
				},
				{
					""id"": ""step1"",
					""transitionSets"": [
						{
							""channel"": ""batteryStatus.out"",
							""transitions"": [
								{
									""value"": ""MissionCritical"",
									""next"": ""step2""
								}
							]
						}
					],
					""verdicts"": {
						""b4h"": ""pass""
					}
				},
				{
					""id"": ""step2"",
					""verdicts"": {
						""b4h"": ""fail""
					}
				}
			],
			""types"": {
				""batteryInfo"": ""nat"",
				""batteryStatus"": ""enum""
			},
			""tests"": [
				""b4h""
			]
		},
		""b4i"": {
			""states"": [
				{
					""id"": ""initial"",
					""transitionSets"": [
						{
							""channel"": ""batteryInfo.in"",
							""transitions"": [
								{
									""value"": ""20"",
									""next"": ""step0""
								}
							]
						}
					],
					""verdicts"": {
						""b4i"": ""inc""
					}
				},
				{
					""id"": ""step0"",
					""transitionSets"": [
						{
							""channel"": ""batteryStatus.out"",
							""transitions"": [
								{
									""value"": ""SafetyCritical"",
									""next"": ""step1""
								}
							]
						}
					],
					""verdicts"": {
						""b4i"": ""inc""
					}
				},
				{
					""id"": ""step1"",
					""transitionSets"": [
						{
							""channel"": ""batteryStatus.out"",
							""transitions"": [
								{
									""value"": ""SafetyCritical"",
									""next"": ""step2""
								}
							]
						}
					],
					""verdicts"": {
						""b4i"": ""pass""
					}
				},
				{
					""id"": ""step2"",
					""verdicts"": {
						""b4i"": ""fail""
					}
				}
			],
			""types"": {
				""batteryInfo"": ""nat"",
				""batteryStatus"": ""enum""
			},
			""tests"": [
				""b4i""
			]
		}
	}
}
".

(** examples/bmon/gen.xml, all of it. *)
Definition bmon_xml : gostr := lit "<?xml version=""1.0"" encoding=""UTF-8"" ?>
<rtcg-gen>
    <cpp variant=""animate"">
        <makefile />

        <!-- Tell the generator that this channel maps to a float: -->
        <channel name=""batteryInfo"" type=""float"" />
    </cpp>
    <cpp variant=""ros"">
        <catkin>
            <package>
                <buildtool_depend>catkin</buildtool_depend>
                <depend>roscpp</depend>
                <depend>std_msgs</depend>
                <depend>sensor_msgs</depend>
            </package>
        </catkin>

        <include src=""std_msgs/Float32.h"" />
        <include src=""sensor_msgs/BatteryState.h"" />

        <!-- Tell the generator that this channel maps non-trivially to a ROS type: -->
        <channel name=""batteryInfo"" type=""sensor_msgs::BatteryState"" />
    </cpp>
</rtcg-gen>".

(** examples/bmon/animate/src/convert/convert.cpp, all of it. *)
Definition bmon_animate_convert : gostr := lit "// Conversion functions for battery messages.

unsigned int fromBatteryInfo(const float msg)
{
  // Model is nat 0-100, ROS is float 0.0-1.0
  return static_cast<unsigned int>(msg * 100);
}

float toBatteryInfo(unsigned int value)
{
  return static_cast<float>(value) / 100.0;
}
".

(** examples/bmon/ros/src/convert/convert.cpp, all of it. *)
Definition bmon_ros_convert : gostr := lit "// Conversion functions for battery messages.
//
// The test driver models these as unsigned integers, whereas in ROS they are
// BatteryState messages.

#include ""sensor_msgs/BatteryState.h""

unsigned int fromBatteryInfo(const sensor_msgs::BatteryState::ConstPtr& msg)
{
  // Model is nat 0-100, ROS is float 0.0-1.0
  return static_cast<unsigned int>(msg->percentage * 100);
}

sensor_msgs::BatteryState toBatteryInfo(unsigned int value)
{
  sensor_msgs::BatteryState msg;

  msg.percentage = static_cast<float>(value) / 100.0;

  return msg;
}
".

(** *** The recorded outputs are those of the model *)
Lemma bmon_tests_recorded : run_read_traces map_to_list bmon_traces = Ok bmon_tests.
Proof. vm_compute. reflexivity. Qed.
Lemma bmon_stms_recorded : run_make_stms some_orders bmon_tests = Ok bmon_stms.
Proof. vm_compute. reflexivity. Qed.

Theorem C87_recorded : run_read_traces map_to_list bmon_traces = Ok bmon_tests /\ run_make_stms some_orders bmon_tests = Ok bmon_stms.
Proof. split; [exact bmon_tests_recorded|exact bmon_stms_recorded]. Qed.
Print Assumptions C87_recorded.

(** *** The traces *)
Definition all_events (ts : list forbidden) : list event := concat (map trace_events ts).
Lemma all_events_in ts e : traces_event ts e <-> e ∈ all_events ts.
Proof.
  unfold traces_event, all_events. induction ts as [|t ts IH]; cbn [map concat].
  - split; [intros (t & Ht & _)|intros H]; by apply elem_of_nil in H || apply elem_of_nil in Ht.
  - rewrite elem_of_app, <- IH. split.
    + intros (t' & [->|Ht]%elem_of_cons & He); [by left|right]. by exists t'.
    + intros [He|(t' & Ht & He)]; [exists t|exists t']; (split; [|done]); [left|by right].
Qed.
Local Instance class_eq : EqDecision vclass.
Proof. solve_decision. Defined.
Definition literalb (v : value) : bool :=
  match v with
  | None => false
  | Some (IntV z) => (Z.abs z <? 2 ^ 63)%Z
  | Some (EnumV s) => safeb s
  end.
Definition safe_eventb (e : event) : bool :=
  match event_unmarshal zero_event (event_marshal e) with Ok e' => bool_decide (e' = e) | _ => false end && negb (bool_decide (ch_name (e_chan e) = [])) &&
  forallb is_ascii (ch_name (e_chan e)) && forallb is_ascii (value_string_value (e_value e)).
Definition testableb (ts : list forbidden) : bool :=
  forallb (fun t => forallb is_ascii (f_name t) && (length (f_prefix t) <=? 4996) && runnableb t) ts &&
  forallb (fun e => safe_eventb e && literalb (e_value e) &&
    forallb (fun e2 => negb (bool_decide (ch_name (e_chan e) = ch_name (e_chan e2))) || bool_decide (class_of (e_value e) = class_of (e_value e2))) (all_events ts)) (all_events ts).
Lemma safe_eventb_ok e : safe_eventb e = true -> safe_event e.
Proof.
  unfold safe_eventb. rewrite !andb_true_iff. intros [[[H1 H2] H3] H4].
  destruct (event_unmarshal zero_event (event_marshal e)) as [e'| |] eqn:E; [|done..]. apply bool_decide_eq_true in H1. subst e'.
  apply (C36_read_events_safe _ e E); [|by apply lit_valid..]. by apply negb_true_iff, bool_decide_eq_false in H2.
Qed.
Lemma testableb_ok ts : testableb ts = true -> testable ts.
Proof.
  unfold testableb. rewrite andb_true_iff, !forallb_forall. intros [H1 H2].
  assert (Ht : forall t, t ∈ ts -> forallb is_ascii (f_name t) = true /\ length (f_prefix t) <= 4996 /\ runnable t).
  { intros t Ht%elem_of_list_In. specialize (H1 t Ht). rewrite !andb_true_iff in H1. destruct H1 as [[Ha Hb] Hc]. split; [done|]. split; [by apply Nat.leb_le|by apply runnableb_ok]. }
  assert (He : forall e, traces_event ts e -> safe_event e /\ literalb (e_value e) = true /\
    forall e2, traces_event ts e2 -> ch_name (e_chan e) = ch_name (e_chan e2) -> class_of (e_value e) = class_of (e_value e2)).
  { intros e He%all_events_in%elem_of_list_In. specialize (H2 e He). rewrite !andb_true_iff, forallb_forall in H2. destruct H2 as [[Ha Hb] Hc].
    split; [by apply safe_eventb_ok|]. split; [done|]. intros e2 He2%all_events_in%elem_of_list_In Hn. specialize (Hc e2 He2).
    apply orb_true_iff in Hc as [Hc|Hc]; [by apply negb_true_iff, bool_decide_eq_false in Hc|by apply bool_decide_eq_true in Hc]. }
  split.
  - apply Forall_forall. intros t Hin. assert (Hs : forall e, e ∈ trace_events t -> safe_event e) by (intros e H; apply (He e); by exists t). split; [|split].
    + apply lit_valid. by apply Ht.
    + apply Forall_forall. intros e H. apply Hs. unfold trace_events. apply elem_of_app. by left.
    + apply Hs. unfold trace_events. apply elem_of_app. right. left.
  - apply Forall_forall. intros t Hin. by apply Ht.
  - intros e1 e2 He1 He2. by apply (He e1 He1).
  - intros e H. destruct (He e H) as (_ & Hl & _). unfold literalb, literal_value in *. destruct (e_value e) as [[z|s]|]; [by apply Z.ltb_lt|by apply safeb_ok|done].
  - apply Forall_forall. intros t Hin. by apply Ht.
Qed.
Definition bmon_forbidden : list forbidden := match read_traces bmon_traces with Ok ts => ts | _ => [] end.
Lemma bmon_read : read_traces bmon_traces = Ok bmon_forbidden.
Proof. unfold bmon_forbidden. destruct (read_traces bmon_traces) eqn:E; [done|exfalso..]; vm_compute in E; discriminate E. Qed.
Lemma bmon_testable : testable bmon_forbidden.
Proof. apply testableb_ok. vm_compute. reflexivity. Qed.

(** Traces that all have names of their own keep them. *)
Lemma own_names ts : forallb (fun t => negb (bool_decide (f_name t = [] \/ f_name t = lit "test"))) ts = true -> NoDup (map f_name ts) -> named ts (map f_name ts).
Proof.
  intros Hne Hnd. split; [by rewrite map_length|]. intros i t Hi. exists 0.
  assert (Hc : candidate t 0 = f_name t).
  { rewrite forallb_forall in Hne. apply elem_of_list_lookup_2, elem_of_list_In in Hi. specialize (Hne t Hi). apply negb_true_iff, bool_decide_eq_false in Hne. unfold candidate. by rewrite decide_False. }
  rewrite Hc. split; [by rewrite list_lookup_fmap, Hi|]. split; [lia|]. split; [|intros j Hj; lia].
  intros Hin. apply elem_of_list_lookup in Hin as [j Hj]. apply lookup_take_Some in Hj as [Hj Hlt].
  assert (Hi' : map f_name ts !! i = Some (f_name t)) by (by rewrite list_lookup_fmap, Hi). pose proof (NoDup_lookup _ _ _ _ Hnd Hj Hi'). lia.
Qed.
Definition bmon_names : list gostr := map f_name bmon_forbidden.
Lemma bmon_named : named bmon_forbidden bmon_names.
Proof. apply own_names; [vm_compute; reflexivity|]. apply (bool_decide_eq_true_1 _). vm_compute. reflexivity. Qed.
Definition trace_namesb (t : forbidden) (name : gostr) : bool :=
  plain_identb name && negb (bool_decide (name = lit "Verdict")) && negb (bool_decide (name = lit "dump")) &&
  forallb (fun e => plain_identb (ch_name (e_chan e))) (trace_events t) &&
  forallb (fun c => negb (bool_decide (c ∈ [lit "timeout"; lit "initialDelay"; lit "inputAccepted"])) &&
    forallb (fun e => negb (bool_decide (callback_name c = convert_to (ch_name (e_chan e)))) && negb (bool_decide (callback_name c = convert_from (ch_name (e_chan e))))) (trace_events t))
    (output_names (trace_events t)).
Lemma trace_namesb_ok t name : trace_namesb t name = true -> trace_names t name.
Proof.
  unfold trace_namesb. rewrite !andb_true_iff, !forallb_forall. intros [[[[H1 H2] H3] H4] H5]. split.
  - split; [by apply plain_identb_ok|]. split; [by apply negb_true_iff, bool_decide_eq_false in H2|by apply negb_true_iff, bool_decide_eq_false in H3].
  - intros e He%elem_of_list_In. apply plain_identb_ok. by apply H4.
  - intros c Hc%elem_of_list_In. specialize (H5 c Hc). rewrite andb_true_iff, forallb_forall in H5. destruct H5 as [H5 H6]. apply negb_true_iff, bool_decide_eq_false in H5.
    split; [intros ->; apply H5; left|]. split; [intros ->; apply H5; right; left|]. split; [intros ->; apply H5; right; right; left|].
    intros e He%elem_of_list_In. specialize (H6 e He). rewrite andb_true_iff in H6. destruct H6 as [H6 H7]. by apply negb_true_iff, bool_decide_eq_false in H6, H7.
Qed.
Lemma bmon_trace_names i t name : bmon_forbidden !! i = Some t -> bmon_names !! i = Some name -> trace_names t name.
Proof.
  intros Ht Hn. unfold bmon_names in Hn. rewrite list_lookup_fmap, Ht in Hn. injection Hn as <-. apply trace_namesb_ok.
  assert (H : forallb (fun t => trace_namesb t (f_name t)) bmon_forbidden = true) by (vm_compute; reflexivity).
  rewrite forallb_forall in H. apply H. apply elem_of_list_In. by eapply elem_of_list_lookup_2.
Qed.
Definition topicsb (t : forbidden) : bool :=
  forallb (fun c => negb (bool_decide (topic_name c = lit "input_accepted")) &&
    forallb (fun d => negb (bool_decide (topic_name c = topic_name d)) || bool_decide (c = d)) (output_names (trace_events t))) (output_names (trace_events t)).
Lemma topicsb_ok t : topicsb t = true -> trace_topics t.
Proof.
  unfold topicsb. rewrite forallb_forall. intros H. split.
  - intros c d Hc%elem_of_list_In Hd%elem_of_list_In Ht. specialize (H c Hc). rewrite andb_true_iff, forallb_forall in H. destruct H as [_ H]. specialize (H d Hd).
    apply orb_true_iff in H as [H|H]; [by apply negb_true_iff, bool_decide_eq_false in H|by apply bool_decide_eq_true in H].
  - intros c Hc%elem_of_list_In. specialize (H c Hc). rewrite andb_true_iff in H. destruct H as [H _]. by apply negb_true_iff, bool_decide_eq_false in H.
Qed.
Lemma bmon_topics i t : bmon_forbidden !! i = Some t -> trace_topics t.
Proof.
  intros Ht. apply topicsb_ok. assert (H : forallb topicsb bmon_forbidden = true) by (vm_compute; reflexivity).
  rewrite forallb_forall in H. apply H. apply elem_of_list_In. by eapply elem_of_list_lookup_2.
Qed.

(** *** Its configuration and files *)
Definition bmon_conf : config :=
  Config [CppConfig VAnimate [] [(lit "batteryInfo", lit "float")] true None;
          CppConfig VRos [Include (lit "std_msgs/Float32.h") false; Include (lit "sensor_msgs/BatteryState.h") false] [(lit "batteryInfo", lit "sensor_msgs::BatteryState")] false
            (Some (Some (Package 0 [] [] [] [] [] [] [lit "catkin"] [lit "roscpp"; lit "std_msgs"; lit "sensor_msgs"])))] [].
Definition unused_listb (ds : list fpath) (fls : list (fpath * content)) (d : fpath) : bool :=
  forallb (fun pc => negb (bool_decide (d `prefix_of` pc.1)) && negb (bool_decide (pc.1 `prefix_of` d))) fls &&
  forallb (fun p => negb (bool_decide (d `prefix_of` p)) || bool_decide (p = d)) ds.
Lemma unused_listb_ok ds fls d : unused_listb ds fls d = true -> unused (list_fs ds fls) d.
Proof.
  unfold unused_listb. rewrite andb_true_iff, !forallb_forall. intros [H1 H2]. split; unfold list_fs; cbn [fs_dirs fs_files].
  - intros p c Hp%elem_of_list_to_map_2%elem_of_list_In. specialize (H1 _ Hp). cbn [fst] in H1. apply andb_true_iff in H1 as [Ha Hb].
    by apply negb_true_iff, bool_decide_eq_false in Ha, Hb.
  - intros p Hp%elem_of_list_to_set%elem_of_list_In Hd. specialize (H2 _ Hp). apply orb_true_iff in H2 as [H2|H2]; [by apply negb_true_iff, bool_decide_eq_false in H2|by apply bool_decide_eq_true in H2].
Qed.
Definition bmon_home : fpath := [lit "rtcg"; lit "examples"; lit "bmon"].
Definition bmon_fs : fs := list_fs
  [[lit "rtcg"]; [lit "rtcg"; lit "examples"]; bmon_home; bmon_home ++ [lit "animate"]; bmon_home ++ [lit "animate"; lit "src"]; bmon_home ++ [lit "animate"; lit "src"; lit "convert"];
   bmon_home ++ [lit "ros"]; bmon_home ++ [lit "ros"; lit "src"]; bmon_home ++ [lit "ros"; lit "src"; lit "convert"]]
  [(bmon_home ++ [lit "traces"], Bytes bmon_traces); (bmon_home ++ [lit "gen.xml"], Bytes bmon_xml);
   (bmon_home ++ [lit "tests.json"], Bytes bmon_tests); (bmon_home ++ [lit "stms.json"], Bytes bmon_stms);
   (bmon_home ++ [lit "animate"; lit "src"; lit "convert"; lit "convert.cpp"], Bytes bmon_animate_convert);
   (bmon_home ++ [lit "ros"; lit "src"; lit "convert"; lit "convert.cpp"], Bytes bmon_ros_convert)].
(** rtcg-gen -output out gen.xml - *)
Definition bmon_act : gen_action := GenAction false (lit "out") (lit "gen.xml") (lit "-").

(** The tools succeed on the example, and each of its 21 traces gets a program in each of the two variants that
    ends with exit code 1 exactly if the trace is observed, whatever the maps' orders. *)
Theorem C87_exit_codes : forall first second ord o gord, any_order ord -> any_orders o -> (forall s, orders s (gord s)) ->
  exists tests_text stms_text s f',
    run_read_traces ord bmon_traces = Ok tests_text /\ run_make_stms o tests_text = Ok stms_text /\ gen_input stms_text = Some s /\
    run_gen (read_config first second) gen_input gord bmon_home stms_text bmon_act bmon_fs = (f', None) /\
    length bmon_forbidden = 21 /\
    forall cc t date, cc ∈ cf_cpps bmon_conf -> t ∈ bmon_forbidden -> byte 10 ∉ (date : list ascii) ->
      exists x txt, fs_files f' !! (bmon_home ++ [lit "out"; variant_string (cc_variant cc); lit "src"; f_name t; lit "src"; lit "main.cpp"]) = Some x /\
        file_text date x txt /\
        (cc_variant cc = VAnimate -> animate_tests t (su_types s) txt) /\
        (cc_variant cc = VRos -> ros_tests t (f_name t) (su_types s) txt).
Proof.
  intros first second ord o gord Ho Hos Hgo.
  destruct (C61_pipeline ord o bmon_traces bmon_forbidden Ho Hos bmon_read bmon_testable) as (x & y & s & names & H1 & H2 & H3 & Hn & _).
  clear names Hn. pose proof bmon_named as Hn.
  destruct (run_gen (read_config first second) gen_input gord bmon_home y bmon_act bmon_fs) as [f' err] eqn:Er.
  assert (Hd : exists e, document first second bmon_xml e /\ says_config e bmon_conf) by (apply C81_only; vm_compute; reflexivity).
  destruct Hd as (e & Hd & Hs).
  assert (Hwf : wf_fs bmon_fs) by (apply wf_listb_ok; vm_compute; reflexivity).
  assert (Hcwd : is_dir bmon_fs bmon_home) by (right; refine (bool_decide_eq_true_1 _ _); vm_compute; reflexivity).
  assert (Hin : names_stdin (ga_input bmon_act)) by (by intros here).
  assert (Hnv : NoDup (map cc_variant (cf_cpps bmon_conf))) by (apply (bool_decide_eq_true_1 _); vm_compute; reflexivity).
  assert (Hsep : code_dir bmon_home (ga_config bmon_act) bmon_conf <> resolve bmon_home (ga_output bmon_act)) by (refine (bool_decide_eq_false_1 _ _); vm_compute; reflexivity).
  assert (Hxf : fs_files bmon_fs !! resolve bmon_home (ga_config bmon_act) = Some (Bytes bmon_xml)) by (vm_compute; reflexivity).
  assert (Hpl : Forall plain_name bmon_names).
  { apply Forall_forall. intros k Hk. apply elem_of_list_lookup in Hk as [i Hi]. destruct (lookup_lt_is_Some_2 bmon_forbidden i) as [t Ht].
    { unfold bmon_names in Hi. apply lookup_lt_Some in Hi. by rewrite map_length in Hi. }
    destruct (bmon_trace_names i t k Ht Hi) as [[Hk _] _ _]. by apply ident_plain_name. }
  assert (Hprep : prepared bmon_home bmon_act bmon_fs bmon_fs) by (apply keep; reflexivity).
  assert (He : err = None).
  { apply (C82_succeeds first second ord o gord bmon_traces bmon_forbidden bmon_names bmon_xml e bmon_conf bmon_act bmon_home bmon_fs bmon_fs x y f' err
      Ho Hos Hgo bmon_read bmon_testable Hn Hpl Hwf Hcwd Hin Hprep Hxf Hd Hs Hnv Hsep); [| |exact H1|exact H2|exact Er|].
    - intros _. apply unused_listb_ok. vm_compute. reflexivity.
    - discriminate.
    - intros cc Hcc.
      assert (Hov : chain_overrides bmon_forbidden cc).
      { apply elem_of_list_In in Hcc. assert (Hb : bool_decide (lit "batteryInfo" ∈ map (fun e => ch_name (e_chan e)) (all_events bmon_forbidden)) = true) by (vm_compute; reflexivity).
        apply bool_decide_eq_true, elem_of_list_fmap in Hb as (ev & Hev & Hin').
        exists ev. split; [by apply all_events_in|]. rewrite <- Hev. destruct Hcc as [<-|[<-|[]]]; left. }
      split; [by left|]. intros _. apply elem_of_list_In in Hcc. destruct Hcc as [<-|[<-|[]]]; eexists; vm_compute; reflexivity. }
  subst err. exists x, y, s, f'. split; [exact H1|]. split; [exact H2|]. split; [exact H3|]. split; [exact Er|]. split; [vm_compute; reflexivity|].
  intros cc t date Hcc Ht Hdate. apply elem_of_list_lookup in Ht as [i Hi].
  assert (Hni : bmon_names !! i = Some (f_name t)) by (unfold bmon_names; by rewrite list_lookup_fmap, Hi).
  destruct (C82_exit_codes first second ord o gord bmon_traces bmon_forbidden bmon_names bmon_xml e bmon_conf bmon_act bmon_home bmon_fs x y
     Ho Hos Hgo bmon_read bmon_testable Hn bmon_trace_names Hwf Hcwd Hin Hxf Hd Hs Hnv Hsep H1 H2 f' Er cc i t (f_name t) Hcc Hi Hni) as (c & s' & Hs' & Hc & Htx).
  rewrite H3 in Hs'. injection Hs' as <-.
  destruct (Htx date) as [[txt Htxt] Hall'].
  { split.
    - apply safeb_ok. assert (H : forallb (fun t => safeb (f_name t)) bmon_forbidden = true) by (vm_compute; reflexivity).
      rewrite forallb_forall in H. apply H. apply elem_of_list_In. by eapply elem_of_list_lookup_2.
    - exact Hdate.
    - intros inc Hi'. apply elem_of_list_In in Hcc. destruct Hcc as [<-|[<-|[]]]; apply elem_of_list_In in Hi'.
      + destruct Hi'.
      + destruct Hi' as [<-|[<-|[]]]; apply (bool_decide_eq_true_1 (_ ∉ _)); vm_compute; reflexivity. }
  exists c, txt. split; [exact Hc|]. split; [exact Htxt|]. destruct (Hall' txt Htxt) as [Ha Hr]. split; [exact Ha|].
  intros Hv. apply Hr; [exact Hv|]. by apply (bmon_topics i).
Qed.
Print Assumptions C87_exit_codes.

(** *** Its conversions

    IEEE 754 arithmetic as in the standard library (SpecFloat, without axioms), rounding to nearest, float being
    binary32 and double binary64, and no operation done in a wider type than its own. *)
Definition to_float (z : Z) : spec_float := binary_normalize 24 128 z 0 false.
Definition to_double (z : Z) : spec_float := binary_normalize 53 1024 z 0 false.
Definition as_double (x : spec_float) : spec_float :=
  match x with S754_finite s m e => binary_normalize 53 1024 (cond_Zopp s (Zpos m)) e s | _ => x end.
Definition as_float (x : spec_float) : spec_float :=
  match x with S754_finite s m e => binary_normalize 24 128 (cond_Zopp s (Zpos m)) e s | _ => x end.
(** static_cast<unsigned int> of a float: towards zero; undefined if that does not fit. *)
Definition to_unsigned (x : spec_float) : option Z :=
  match x with
  | S754_zero _ => Some 0%Z
  | S754_finite false m e => let z := Z.shiftl (Zpos m) e in if (z <? 2 ^ 32)%Z then Some z else None
  | S754_finite true m e => if (Z.shiftl (Zpos m) e =? 0)%Z then Some 0%Z else None
  | _ => None
  end.
(** [toBatteryInfo] and [fromBatteryInfo] (examples/bmon/animate/src/convert/convert.cpp:3-12): the quotient is
    in double, because 100.0 is, and then rounded to the float that is returned; the product is in float.  In
    examples/bmon/ros/src/convert/convert.cpp:10-23 the same is done with the percentage, a float, of a message. *)
Definition example_to (value : Z) : spec_float := as_float (SFdiv 53 1024 (as_double (to_float value)) (to_double 100)).
Definition example_from (msg : spec_float) : option Z := to_unsigned (SFmul 24 128 msg (to_float 100)).

(** Of the values that the example says it has, 0 to 100, two do not survive: 53 becomes 52, and 59 becomes 58. *)
Theorem C87_conversions : forall v, (0 <= v <= 100)%Z ->
  example_from (example_to v) = Some (if decide (v = 53 \/ v = 59)%Z then v - 1 else v)%Z.
Proof.
  intros v Hv. assert (H : forallb (fun n => bool_decide (example_from (example_to (Z.of_nat n)) = Some (if decide (Z.of_nat n = 53 \/ Z.of_nat n = 59)%Z then Z.of_nat n - 1 else Z.of_nat n)%Z)) (seq 0 101) = true) by (vm_compute; reflexivity).
  rewrite forallb_forall in H. specialize (H (Z.to_nat v)). rewrite Z2Nat.id in H by lia. apply bool_decide_eq_true in H; [exact H|]. apply in_seq. lia.
Qed.
Print Assumptions C87_conversions.
