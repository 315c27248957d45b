.nra.cache
__pycache__/
