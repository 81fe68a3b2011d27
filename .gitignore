__pycache__
.nra.cache
